(** Lemmas about secret pointers and the extended tree builder. *)
From Coq Require Import Lia.
From Verif Require Import Base Value Text M_Marshal M_BinUnmarshal M_TreeBuilder M_Secrets S_Value S_Secrets
  L_Base L_RoundTrip L_TreeBuilder L_Text.

(** ** Escaping *)
Lemma unescape_escape : forall s, unescape (escape s) = Ok s.
Proof.
  induction s as [|c s IH]; [reflexivity|]. cbn [escape].
  destruct (b2z c =? 44) eqn:E1; [apply Z.eqb_eq in E1; cbn; rewrite IH; cbn; do 2 f_equal; apply b2z_inj; rewrite E1; reflexivity|].
  destruct (b2z c =? 47) eqn:E2; [apply Z.eqb_eq in E2; cbn; rewrite IH; cbn; do 2 f_equal; apply b2z_inj; rewrite E2; reflexivity|].
  destruct (b2z c =? 126) eqn:E3; [apply Z.eqb_eq in E3; cbn; rewrite IH; cbn; do 2 f_equal; apply b2z_inj; rewrite E3; reflexivity|].
  cbn [app unescape]. rewrite E3, IH. reflexivity.
Qed.

Lemma escape_clean : forall s c, In c (escape s) -> b2z c <> 47 /\ b2z c <> 44.
Proof.
  induction s as [|a s IH]; intros c H; [destruct H|]. cbn [escape] in H. apply in_app_or in H. destruct H as [H|H]; auto.
  destruct (b2z a =? 44) eqn:E1; [destruct H as [<-|[<-|[]]]; split; vm_compute; discriminate|].
  destruct (b2z a =? 47) eqn:E2; [destruct H as [<-|[<-|[]]]; split; vm_compute; discriminate|].
  destruct (b2z a =? 126) eqn:E3; [destruct H as [<-|[<-|[]]]; split; vm_compute; discriminate|].
  destruct H as [<-|[]]. lia.
Qed.

(** ** Pointer text and its parsing *)
Lemma cut_slash_seg : forall s acc rest, (forall c, In c s -> b2z c <> 47) ->
  cut_slash (s ++ x2f :: rest) acc = (acc ++ s) :: cut_slash rest [].
Proof.
  induction s as [|c s IH]; intros acc rest H; cbn [app cut_slash].
  - change (b2z x2f =? 47) with true. cbn. rewrite app_nil_r. reflexivity.
  - destruct (b2z c =? 47) eqn:E; [apply Z.eqb_eq in E; exfalso; eapply H; eauto; left; reflexivity|].
    rewrite IH, <- app_assoc; [reflexivity|]. intros; apply H; right; auto.
Qed.

Lemma cut_slash_last : forall s acc, (forall c, In c s -> b2z c <> 47) -> acc ++ s <> [] -> cut_slash s acc = [acc ++ s].
Proof.
  induction s as [|c s IH]; intros acc H N; cbn [cut_slash].
  - rewrite app_nil_r in *. destruct acc; [congruence|reflexivity].
  - destruct (b2z c =? 47) eqn:E; [apply Z.eqb_eq in E; exfalso; eapply H; eauto; left; reflexivity|].
    rewrite IH, <- app_assoc; [reflexivity| |]. { intros; apply H; right; auto. } destruct acc; discriminate.
Qed.

Definition key_ok (k : pkey) : Prop := match k with KName s => s <> [] | KIndex i => 0 <= i end.
Definition key_string (k : pkey) : bytes := match k with KName s => s | KIndex i => dec i end.

Lemma digit_not : forall b z, is_digit b = true -> (z < 48 \/ 57 < z) -> b2z b <> z.
Proof. intros b z H HZ. unfold is_digit in H. lia. Qed.

Lemma unescape_id : forall s, (forall c, In c s -> b2z c <> 126) -> unescape s = Ok s.
Proof.
  induction s as [|c s IH]; intros H; cbn [unescape]; [reflexivity|].
  destruct (b2z c =? 126) eqn:E; [apply Z.eqb_eq in E; exfalso; eapply H; eauto; left; reflexivity|].
  rewrite IH; [reflexivity|]. intros; apply H; right; auto.
Qed.

Lemma dec_digits : forall i c, 0 <= i -> In c (dec i) -> is_digit c = true.
Proof. intros i c H I. destruct (dec_spec i H) as (_ & F & _). rewrite Forall_forall in F. auto. Qed.

Lemma key_text : forall k, key_ok k -> unescape (pkey_text k) = Ok (key_string k)
  /\ pkey_text k <> [] /\ forall c, In c (pkey_text k) -> b2z c <> 47.
Proof.
  intros [s|i] H; cbn [pkey_text key_string key_ok] in *.
  - split; [apply unescape_escape|]. split; [|intros c I; apply escape_clean in I; tauto].
    destruct s as [|c s]; [congruence|]. cbn [escape]. destruct (b2z c =? 44), (b2z c =? 47), (b2z c =? 126); discriminate.
  - split; [apply unescape_id; intros c I; apply digit_not with (b := c); [eapply dec_digits; eauto|lia]|].
    split; [apply dec_spec; auto|]. intros c I; apply digit_not with (b := c); [eapply dec_digits; eauto|lia].
Qed.

Lemma pointer_parse : forall p, Forall key_ok p -> pointer_keys (pointer_text p) = Ok (map key_string p).
Proof.
  intros [|k p] F; [reflexivity|]. cbn [pointer_text flat_map app pointer_keys].
  change (b2z x2f =? 47) with true. cbn iota.
  revert k F. induction p as [|k2 p IH]; intros k F; inversion F; subst; destruct (key_text k H1) as (U & N & C).
  - cbn [flat_map]. rewrite app_nil_r, cut_slash_last by auto. cbn [app unescape_all map]. rewrite U. reflexivity.
  - cbn [flat_map app]. rewrite cut_slash_seg by auto. cbn [app unescape_all]. rewrite U. cbn [bind].
    rewrite IH by auto. reflexivity.
Qed.

(** ** Relative pointers of the secrets in a value *)
Fixpoint rel (v : value) : list (list pkey) :=
  match v with
  | VStruct m =>
      (fix go (l : list (bytes * value)) : list (list pkey) :=
         match l with
         | [] => []
         | (k, x) :: r => map (cons (KName k)) (rel x) ++ go r
         end) m
  | VArray l =>
      (fix go (i : Z) (l : list value) : list (list pkey) :=
         match l with
         | [] => []
         | x :: r => map (cons (KIndex i)) (rel x) ++ go (i + 1) r
         end) 0 l
  | VSecret x => [] :: rel x
  | _ => []
  end.

Definition rel_items := fix go (i : Z) (l : list value) : list (list pkey) :=
         match l with
         | [] => []
         | x :: r => map (cons (KIndex i)) (rel x) ++ go (i + 1) r
         end.
Definition rel_members := fix go (l : list (bytes * value)) : list (list pkey) :=
         match l with
         | [] => []
         | (k, x) :: r => map (cons (KName k)) (rel x) ++ go r
         end.

Lemma gather_rel : forall v pre, gather pre v = map (fun r => pointer_text (pre ++ r)) (rel v).
Proof.
  induction v using value_nested_ind; intro pre; try reflexivity.
  - change (rel (VStruct m)) with (rel_members m). cbn [gather].
    induction H as [|[k x] m Hx F IH]; [reflexivity|]. cbn [rel_members]. rewrite map_app, IH. f_equal.
    cbn [snd] in Hx. rewrite Hx, map_map. apply map_ext. intro r. rewrite <- app_assoc. reflexivity.
  - change (rel (VArray l)) with (rel_items 0 l). cbn [gather]. generalize 0 as i.
    induction H as [|x l Hx F IH]; intro i; [reflexivity|]. cbn [rel_items]. rewrite map_app, IH. f_equal.
    rewrite Hx, map_map. apply map_ext. intro r. rewrite <- app_assoc. reflexivity.
  - cbn [gather rel map]. rewrite app_nil_r, IHv. reflexivity.
Qed.

Lemma rel_ok : forall ver v, wf ver v -> Forall (Forall key_ok) (rel v).
Proof.
  induction v using value_nested_ind; intro W; try (constructor; fail).
  - change (rel (VStruct m)) with (rel_members m). apply wf_struct in W. destruct W as (_ & _ & FW). clear -H FW.
    induction H as [|[k x] m Hx F IH]; [constructor|]. inversion FW as [|? ? [K W] FW']; subst. cbn [fst snd] in *.
    cbn [rel_members]. apply Forall_app. split; auto. apply Forall_map. specialize (Hx W).
    rewrite Forall_forall in *. intros r I. constructor; [cbn; destruct k; [cbn in K; lia|discriminate]|apply Hx; auto].
  - change (rel (VArray l)) with (rel_items 0 l). apply wf_array in W. destruct W as (_ & FW). clear -H FW.
    assert (0 <= 0) as HI by lia. revert HI. generalize 0 at 2 3 as i.
    induction H as [|x l Hx F IH]; intros i HI; [constructor|]. inversion FW; subst.
    cbn [rel_items]. apply Forall_app. split; [|apply IH; auto; lia]. apply Forall_map. specialize (Hx H1).
    rewrite Forall_forall in *. intros r I. constructor; [exact HI|apply Hx; auto].
  - cbn [rel]. constructor; [constructor|auto].
Qed.

Lemma rel_nil : forall v, rel v = [] <-> has_secret v = false.
Proof.
  induction v using value_nested_ind; try (split; reflexivity).
  - change (rel (VStruct m)) with (rel_members m). cbn [has_secret].
    induction H as [|[k x] m Hx F IH]; [split; reflexivity|]. cbn [rel_members existsb snd] in *. split; intro E.
    + apply app_eq_nil in E. destruct E as [A B]. apply map_eq_nil in A. apply Hx in A. apply IH in B. rewrite A, B. reflexivity.
    + apply orb_false_iff in E. destruct E as [A B]. apply Hx in A. apply IH in B. rewrite A, B. reflexivity.
  - change (rel (VArray l)) with (rel_items 0 l). cbn [has_secret]. generalize 0 as i.
    induction H as [|x l Hx F IH]; intro i; [split; reflexivity|]. cbn [rel_items existsb] in *. split; intro E.
    + apply app_eq_nil in E. destruct E as [A B]. apply map_eq_nil in A. apply Hx in A. apply IH in B. rewrite A, B. reflexivity.
    + apply orb_false_iff in E. destruct E as [A B]. apply Hx in A. apply (IH (i + 1)) in B. rewrite A, B. reflexivity.
  - split; discriminate.
Qed.

(** ** The secret tree *)
Definition tree_of (L : list (list bytes)) : snode := fold_left (fun n p => sadd p n) L (SNode []).

Lemma build_tree : forall ps n, Forall (Forall key_ok) ps ->
  build_secret_tree (map pointer_text ps) n = Ok (fold_left (fun n p => sadd p n) (map (map key_string) ps) n).
Proof.
  induction ps as [|p ps IH]; intros n F; [reflexivity|]. inversion F; subst.
  cbn [map build_secret_tree fold_left]. rewrite pointer_parse by auto. cbn [bind]. auto.
Qed.

(** The tails of the paths that begin with [k]. *)
Fixpoint tails (k : bytes) (L : list (list bytes)) : list (list bytes) :=
  match L with
  | [] => []
  | [] :: r => tails k r
  | (a :: p) :: r => if bytes_eqb a k then p :: tails k r else tails k r
  end.

Definition is_nil {A} (l : list A) : bool := match l with [] => true | _ => false end.

(** What a node says about a child reached by the paths [ts]. *)
Definition sub_node (ts : list (list bytes)) : option snode :=
  if forallb is_nil ts then None else Some (tree_of ts).

Lemma tails_app : forall k a b, tails k (a ++ b) = tails k a ++ tails k b.
Proof.
  induction a as [|[|x p] a IH]; intro b; cbn [tails app]; auto. destruct (bytes_eqb x k); rewrite IH; reflexivity.
Qed.

Lemma find_update : forall k k' f n,
  option_map snd (find (fun e => bytes_eqb (fst e) k') (edge_update k f (sedges n))) =
  if bytes_eqb k k' then Some (f (match find_name k n with Some o => o | None => None end)) else find_name k' n.
Proof.
  intros k k' f [es]. unfold find_name. cbn [sedges].
  induction es as [|[a o] es IH]; cbn [edge_update find fst].
  - destruct (bytes_eqb k k'); reflexivity.
  - destruct (bytes_eqb a k) eqn:E; cbn [find fst].
    + apply bytes_eqb_eq in E. subst a. rewrite ?bytes_eqb_refl. destruct (bytes_eqb k k') eqn:E2; [|reflexivity].
      reflexivity.
    + destruct (bytes_eqb a k') eqn:E2.
      * apply bytes_eqb_eq in E2. subst a. destruct (bytes_eqb k k') eqn:E3; [|reflexivity].
        apply bytes_eqb_eq in E3. subst. rewrite bytes_eqb_refl in E. discriminate.
      * exact IH.
Qed.

Lemma find_sadd : forall k k' r n,
  find_name k' (sadd (k :: r) n) =
  if bytes_eqb k k' then
    Some (match r with
          | [] => match find_name k n with Some o => o | None => None end
          | _ => Some (sadd r (match find_name k n with Some (Some n') => n' | _ => SNode [] end))
          end)
  else find_name k' n.
Proof.
  intros. unfold find_name at 1. cbn [sadd sedges]. rewrite find_update.
  destruct (bytes_eqb k k'); [|reflexivity]. destruct r; [reflexivity|]. destruct (find_name k n) as [[n'|]|]; reflexivity.
Qed.

Lemma tree_snoc : forall L p, tree_of (L ++ [p]) = sadd p (tree_of L).
Proof. intros. unfold tree_of. rewrite fold_left_app. reflexivity. Qed.

Lemma find_tree : forall k L,
  find_name k (tree_of L) = match tails k L with [] => None | ts => Some (sub_node ts) end.
Proof.
  intros k L. induction L as [|p L IH] using rev_ind; [reflexivity|].
  rewrite tree_snoc, tails_app. destruct p as [|a p]; cbn [tails].
  { rewrite app_nil_r. exact IH. }
  rewrite find_sadd. destruct (bytes_eqb a k) eqn:E; [|rewrite app_nil_r; exact IH].
  apply bytes_eqb_eq in E. subst a. rewrite IH. destruct (tails k L) as [|t ts] eqn:ET; cbn [app].
  - unfold sub_node. cbn [forallb]. destruct p; reflexivity.
  - f_equal. rewrite app_comm_cons. unfold sub_node. remember (t :: ts) as T. rewrite forallb_app.
    destruct p as [|b p]; cbn [forallb is_nil].
    + cbn [andb]. rewrite andb_true_r. destruct (forallb is_nil T) eqn:EF; [reflexivity|]. rewrite tree_snoc. reflexivity.
    + cbn [andb]. rewrite andb_false_r, tree_snoc. destruct (forallb is_nil T) eqn:EF; [|reflexivity].
      do 2 f_equal. clear -EF. induction T as [|[|? ?] T IH] using rev_ind; auto.
      * rewrite forallb_app in EF. apply andb_true_iff in EF. rewrite tree_snoc. cbn [sadd]. apply IH. tauto.
      * rewrite forallb_app in EF. cbn in EF. rewrite andb_false_r in EF. discriminate.
Qed.

(** ** Indices *)
Lemma to_int_digits : forall s f a, Forall (fun b => is_digit b = true) s -> ~ In x30 s ->
  to_int_loop f s a = fold_left (fun a b => a * 10 + digit_val b) s a.
Proof.
  induction s as [|c s IH]; intros f a F N; [reflexivity|]. inversion F as [|? ? D F']; subst. cbn [to_int_loop fold_left].
  assert (b2z c <> 48). { intro E. apply N. left. apply b2z_inj. rewrite E. reflexivity. }
  unfold is_digit in D. replace ((49 <=? b2z c) && (b2z c <=? 57)) with true by lia.
  rewrite IH; auto. { f_equal. unfold digit_val. lia. } intro I. apply N. right. exact I.
Qed.

Lemma to_int_dec : forall i, 0 <= i -> zero_free i -> to_int (dec i) = i.
Proof.
  intros i H [->|Z0]; [reflexivity|]. destruct (dec_spec i H) as (_ & F & U & _).
  unfold to_int. rewrite to_int_digits by auto. exact U.
Qed.

Lemma edges_forall : forall (P : bytes -> Prop) L, Forall (fun p => match p with [] => True | a :: _ => P a end) L ->
  Forall (fun e => P (fst e)) (sedges (tree_of L)).
Proof.
  intros P L. induction L as [|p L IH] using rev_ind; intro F; [constructor|]. apply Forall_app in F. destruct F as [F G].
  inversion G as [|? ? HP _]; subst. rewrite tree_snoc. destruct p as [|a p]; cbn [sadd sedges]; auto. specialize (IH F).
  match goal with |- Forall _ (edge_update a ?f _) => generalize f end. intro f. clear -IH HP.
  induction IH as [|[k o] es K FE IH2]; cbn [edge_update]; [constructor; auto|]. destruct (bytes_eqb k a); constructor; auto.
Qed.

Lemma find_index_name : forall L i, 0 <= i ->
  Forall (fun p => match p with [] => True | a :: _ => exists j, 0 <= j /\ zero_free j /\ a = dec j end) L ->
  find_index i (tree_of L) = find_name (dec i) (tree_of L).
Proof.
  intros L i HI F. apply edges_forall with (P := fun a => exists j, 0 <= j /\ zero_free j /\ a = dec j) in F.
  unfold find_index, find_name. f_equal. induction F as [|[k o] es (j & J0 & JZ & E) F IH]; [reflexivity|].
  cbn [find fst] in *. subst k. rewrite IH, to_int_dec by auto.
  destruct (j =? i) eqn:E1; destruct (bytes_eqb (dec j) (dec i)) eqn:E2; auto.
  - apply Z.eqb_eq in E1. subst. rewrite bytes_eqb_refl in E2. discriminate.
  - apply bytes_eqb_eq in E2. apply dec_inj in E2; auto. lia.
Qed.

(** ** What the extended builder makes of a value, given the secret node it meets *)
Definition lookup_index (o : option snode) (i : Z) : bool * option snode :=
  match o with None => (false, None) | Some s => edge_match (find_index i s) end.
Definition lookup_name (o : option snode) (k : bytes) : bool * option snode :=
  match o with None => (false, None) | Some s => edge_match (find_name k s) end.

Section Deco.
  Variable f : datetime -> datetime.

  Fixpoint deco (o : option snode) (v : value) : value :=
    match v with
    | VStringView s => VString s
    | VBinaryRef _ cs => VBinary (concat cs)
    | VDateTime d => VDateTime (f d)
    | VStruct m =>
        VStruct (map (fun kv => (fst kv, wrap (fst (lookup_name o (fst kv)))
                                              (deco (snd (lookup_name o (fst kv))) (snd kv)))) m)
    | VArray l =>
        VArray ((fix go (i : Z) (l : list value) : list value :=
                   match l with
                   | [] => []
                   | x :: r => wrap (fst (lookup_index o i)) (deco (snd (lookup_index o i)) x) :: go (i + 1) r
                   end) 0 l)
    | VSecret x => deco o x
    | v => v
    end.

  Definition deco_items (o : option snode) := fix go (i : Z) (l : list value) : list value :=
                   match l with
                   | [] => []
                   | x :: r => wrap (fst (lookup_index o i)) (deco (snd (lookup_index o i)) x) :: go (i + 1) r
                   end.
  Definition deco_member (o : option snode) (kv : bytes * value) : bytes * value :=
    (fst kv, wrap (fst (lookup_name o (fst kv))) (deco (snd (lookup_name o (fst kv))) (snd kv))).

  Lemma deco_array : forall o l, deco o (VArray l) = VArray (deco_items o 0 l).
  Proof. reflexivity. Qed.
  Lemma deco_struct : forall o m, deco o (VStruct m) = VStruct (map (deco_member o) m).
  Proof. reflexivity. Qed.

  Lemma plain_wrap : forall g b v, plain g (wrap b v) = plain g v.
  Proof. destruct b; reflexivity. Qed.

  (** The content is untouched, whatever the secret tree. *)
  Lemma plain_deco : forall v o, plain (fun d => d) (deco o v) = plain f v.
  Proof.
    induction v using value_nested_ind; intro o; try reflexivity.
    - rewrite deco_struct. cbn [plain]. f_equal. rewrite map_map. apply map_ext_in. intros kv I. cbn [fst snd deco_member].
      rewrite plain_wrap. f_equal. rewrite Forall_forall in H. apply H. exact I.
    - rewrite deco_array. cbn [plain]. f_equal. generalize 0 as i.
      induction H as [|x l Hx F IH]; intro i; [reflexivity|]. cbn [deco_items map]. rewrite plain_wrap, Hx, IH. reflexivity.
    - cbn [deco plain]. apply IHv.
  Qed.

  Definition R (v : value) : list (list bytes) := map (map key_string) (rel v).
  Definition lookup_R (ts : list (list bytes)) : bool * option snode :=
    edge_match (match ts with [] => None | ts => Some (sub_node ts) end).

  Definition R_items i l := map (map key_string) (rel_items i l).
  Definition R_members l := map (map key_string) (rel_members l).

  Lemma R_items_cons : forall i x l, R_items i (x :: l) = map (cons (dec i)) (R x) ++ R_items (i + 1) l.
  Proof. intros. unfold R_items, R. cbn [rel_items]. rewrite map_app, !map_map. reflexivity. Qed.
  Lemma R_members_cons : forall k x l, R_members ((k, x) :: l) = map (cons k) (R x) ++ R_members l.
  Proof. intros. unfold R_members, R. cbn [rel_members]. rewrite map_app, !map_map. reflexivity. Qed.

  Lemma tails_cons_same : forall k L, tails k (map (cons k) L) = L.
  Proof. induction L as [|p L IH]; cbn [map tails]; auto. rewrite bytes_eqb_refl, IH. reflexivity. Qed.
  Lemma tails_cons_other : forall k a L, a <> k -> tails k (map (cons a) L) = [].
  Proof.
    induction L as [|p L IH]; intro N; cbn [map tails]; auto. destruct (bytes_eqb a k) eqn:E; auto.
    apply bytes_eqb_eq in E. contradiction.
  Qed.

  Lemma tails_items : forall l i j, 0 <= i -> 0 <= j ->
    tails (dec j) (R_items i l) = if j <? i then [] else match nth_error l (Z.to_nat (j - i)) with Some x => R x | None => [] end.
  Proof.
    induction l as [|x l IH]; intros i j HI HJ.
    - change (R_items i []) with (@nil (list bytes)). cbn [tails]. destruct (j <? i); auto. destruct (Z.to_nat (j - i)); reflexivity.
    - rewrite R_items_cons, tails_app, IH by lia. destruct (Z.eq_dec i j) as [->|N].
      + rewrite tails_cons_same. replace (j <? j + 1) with true by lia. replace (j <? j) with false by lia.
        rewrite Z.sub_diag. cbn. apply app_nil_r.
      + rewrite tails_cons_other by (intro E; apply dec_inj in E; auto). cbn [app].
        destruct (j <? i + 1) eqn:E1; [replace (j <? i) with true by lia; reflexivity|]. replace (j <? i) with false by lia.
        replace (Z.to_nat (j - i)) with (S (Z.to_nat (j - (i + 1)))) by lia. reflexivity.
  Qed.

  Lemma tails_members_none : forall (m : list (bytes * value)) k, (forall k' x, In (k', x) m -> k' <> k) -> tails k (R_members m) = [].
  Proof.
    induction m as [|[k' x] m IH]; intros k H; [reflexivity|]. rewrite R_members_cons, tails_app, IH, app_nil_r.
    - apply tails_cons_other. apply (H k' x). left. reflexivity.
    - intros k2 x2 I. apply (H k2 x2). right. exact I.
  Qed.

  Lemma tails_members : forall m k x, increasing m -> In (k, x) m -> tails k (R_members m) = R x.
  Proof.
    induction m as [|[k' x'] m IH]; intros k x I H; [destruct H|]. destruct I as [I1 I2]. rewrite R_members_cons, tails_app.
    destruct H as [E|H].
    - inversion E; subst. rewrite tails_cons_same, tails_members_none; [apply app_nil_r|].
      intros k2 x2 H2 E2. subst. specialize (I1 _ _ H2). rewrite bytes_cmp_refl in I1. discriminate.
    - rewrite tails_cons_other; [apply IH; auto|]. intro E2. subst. specialize (I1 _ _ H). rewrite bytes_cmp_refl in I1. discriminate.
  Qed.

  Lemma not_all_nil : forall L : list (list bytes), L <> [] -> Forall (fun p => p <> []) L -> forallb is_nil L = false.
  Proof. intros [|[|a p] L] N F; [congruence| |reflexivity]. inversion F. congruence. Qed.

  Lemma R_items_nonempty : forall l i, Forall (fun p => p <> []) (R_items i l).
  Proof.
    induction l as [|x l IH]; intro i; [constructor|]. rewrite R_items_cons. apply Forall_app. split; auto.
    apply Forall_map. apply Forall_forall. discriminate.
  Qed.
  Lemma R_members_nonempty : forall m, Forall (fun p => p <> []) (R_members m).
  Proof.
    induction m as [|[k x] m IH]; [constructor|]. rewrite R_members_cons. apply Forall_app. split; auto.
    apply Forall_map. apply Forall_forall. discriminate.
  Qed.

  Definition reach_items := fix all (i : Z) (l : list value) : Prop :=
         match l with
         | [] => True
         | x :: r => ((has_secret x = true -> zero_free i) /\ reachable_secrets x) /\ all (i + 1) r
         end.

  Lemma R_nil : forall v, R v = [] <-> has_secret v = false.
  Proof.
    intro v. rewrite <- rel_nil. unfold R. split; intro H; [apply map_eq_nil in H; exact H|rewrite H; reflexivity].
  Qed.

  Lemma items_zero_free : forall l i, 0 <= i -> reach_items i l ->
    Forall (fun p => match p with [] => True | a :: _ => exists j, 0 <= j /\ zero_free j /\ a = dec j end) (R_items i l).
  Proof.
    induction l as [|x l IH]; intros i HI H; [constructor|]. cbn [reach_items] in H. destruct H as [[H1 _] H2].
    rewrite R_items_cons. apply Forall_app. split; [|apply IH; auto; lia]. apply Forall_map.
    destruct (has_secret x) eqn:E.
    - apply Forall_forall. intros p _. exists i. auto.
    - apply R_nil in E. rewrite E. constructor.
  Qed.

  Lemma nth_zero : forall A (pre : list A) x r, nth_error (pre ++ x :: r) (Z.to_nat (zlen pre)) = Some x.
  Proof.
    intros. unfold zlen. rewrite Nat2Z.id, nth_error_app2, Nat.sub_diag by lia. reflexivity.
  Qed.

  (** The lookup for an item or a member finds exactly the secrets of that item or member. *)
  Lemma lookup_items : forall l pre x r, l = pre ++ x :: r -> reach_items 0 l ->
    lookup_index (sub_node (R_items 0 l)) (zlen pre) = lookup_R (R x).
  Proof.
    intros l pre x r E HR. unfold sub_node.
    assert (T : tails (dec (zlen pre)) (R_items 0 l) = R x).
    { rewrite tails_items by (pose proof (zlen_nonneg _ pre); lia). pose proof (zlen_nonneg _ pre).
      replace (zlen pre <? 0) with false by lia. rewrite Z.sub_0_r. subst l. rewrite nth_zero. reflexivity. }
    destruct (R_items 0 l) as [|p L] eqn:EL.
    - cbn [tails] in T. rewrite <- T. reflexivity.
    - rewrite not_all_nil; [| discriminate | rewrite <- EL; apply R_items_nonempty].
      cbn [lookup_index]. rewrite <- EL in *. rewrite find_index_name, find_tree, T; [destruct (R x); reflexivity| apply zlen_nonneg|].
      apply items_zero_free; auto. lia.
  Qed.

  Lemma lookup_members : forall m k x, increasing m -> In (k, x) m ->
    lookup_name (sub_node (R_members m)) k = lookup_R (R x).
  Proof.
    intros m k x HI H. unfold sub_node. pose proof (tails_members m k x HI H) as T.
    destruct (R_members m) as [|p L] eqn:EL.
    - cbn [tails] in T. rewrite <- T. reflexivity.
    - rewrite not_all_nil; [| discriminate | rewrite <- EL; apply R_members_nonempty].
      cbn [lookup_name]. rewrite <- EL in *. rewrite find_tree, T. destruct (R x); reflexivity.
  Qed.

  Definition bare (v : value) : bool := match v with VSecret _ => false | _ => true end.

  Lemma flat_struct : forall m, flat_secrets (VStruct m) <-> Forall (fun kv => flat_secrets (snd kv)) m.
  Proof.
    induction m as [|[k x] m IH]; cbn; [split; constructor|]. cbn in IH. rewrite IH. split.
    - intros [A B]; constructor; auto.
    - intro F. inversion F; subst. auto.
  Qed.
  Lemma flat_array : forall l, flat_secrets (VArray l) <-> Forall flat_secrets l.
  Proof.
    induction l as [|x m IH]; cbn; [split; constructor|]. cbn in IH. rewrite IH. split.
    - intros [A B]; constructor; auto.
    - intro F. inversion F; subst. auto.
  Qed.
  Lemma reach_struct : forall m, reachable_secrets (VStruct m) <-> Forall (fun kv => reachable_secrets (snd kv)) m.
  Proof.
    induction m as [|[k x] m IH]; cbn; [split; constructor|]. cbn in IH. rewrite IH. split.
    - intros [A B]; constructor; auto.
    - intro F. inversion F; subst. auto.
  Qed.
  Lemma reach_items_forall : forall l i, reach_items i l -> Forall reachable_secrets l.
  Proof. induction l as [|x l IH]; intros i H; constructor; cbn in H; [tauto|]. eapply IH. apply H. Qed.

  Lemma no_secret_flat : forall v, has_secret v = false -> flat_secrets v.
  Proof.
    induction v using value_nested_ind; intro E; try exact I.
    - apply flat_struct. cbn [has_secret] in E. rewrite Forall_forall in *. intros kv HI. apply H; auto.
      destruct (has_secret (snd kv)) eqn:ES; auto. rewrite <- E. symmetry. apply existsb_exists. eauto.
    - apply flat_array. cbn [has_secret] in E. rewrite Forall_forall in *. intros x HI. apply H; auto.
      destruct (has_secret x) eqn:ES; auto. rewrite <- E. symmetry. apply existsb_exists. eauto.
    - discriminate.
  Qed.

  Lemma deco_marked : forall ver v, wf ver v -> flat_secrets v -> reachable_secrets v ->
    (bare v = true -> deco (sub_node (R v)) v = marked f v)
    /\ wrap (fst (lookup_R (R v))) (deco (snd (lookup_R (R v))) v) = marked f v.
  Proof.
    induction v using value_nested_ind; intros W FL RE; try (split; reflexivity).
    - assert (A : deco (sub_node (R (VStruct m))) (VStruct m) = marked f (VStruct m)).
      { rewrite deco_struct. cbn [marked]. f_equal. apply map_ext_in. intros [k x] HI. unfold deco_member. cbn [fst snd]. f_equal.
        change (R (VStruct m)) with (R_members m). apply wf_struct in W. destruct W as (_ & I & FW).
        apply flat_struct in FL. apply reach_struct in RE. rewrite Forall_forall in *.
        rewrite (lookup_members m k x I HI). apply (H (k, x) HI); [apply (FW (k, x) HI)|apply (FL (k, x) HI)|apply (RE (k, x) HI)]. }
      split; auto. unfold lookup_R. change (R (VStruct m)) with (R_members m) in *.
      pose proof (R_members_nonempty m) as NE. unfold sub_node in *. destruct (R_members m) as [|p L]; [exact A|].
      rewrite not_all_nil in * by (auto; discriminate). exact A.
    - assert (A : deco (sub_node (R (VArray l))) (VArray l) = marked f (VArray l)).
      { rewrite deco_array. cbn [marked]. f_equal.
        change (R (VArray l)) with (R_items 0 l). apply wf_array in W. destruct W as (_ & FW).
        apply flat_array in FL. change (reach_items 0 l) in RE. pose proof (reach_items_forall l 0 RE) as RF.
        assert (forall pre suf, l = pre ++ suf -> deco_items (sub_node (R_items 0 l)) (zlen pre) suf = map (marked f) suf) as G.
        { intros pre suf. revert pre. induction suf as [|x suf IH]; intros pre E; [reflexivity|]. cbn [deco_items map].
          rewrite (lookup_items l pre x suf E RE).
          replace (zlen pre + 1) with (zlen (pre ++ [x])) by (rewrite zlen_app; reflexivity).
          rewrite IH by (rewrite <- app_assoc; exact E). f_equal.
          assert (In x l) as HI by (rewrite E; apply in_or_app; right; left; reflexivity).
          rewrite Forall_forall in *. apply (H x HI); auto. }
        apply (G [] l eq_refl). }
      split; auto. unfold lookup_R. change (R (VArray l)) with (R_items 0 l) in *.
      pose proof (R_items_nonempty l 0) as NE. unfold sub_node in *. destruct (R_items 0 l) as [|p L]; [exact A|].
      rewrite not_all_nil in * by (auto; discriminate). exact A.
    - split; [discriminate|]. cbn [flat_secrets] in FL. pose proof FL as N. apply R_nil in N.
      unfold R in *. cbn [rel map]. rewrite N. cbn [deco marked lookup_R sub_node forallb is_nil andb edge_match fst snd wrap].
      f_equal. destruct (IHv W (no_secret_flat _ FL) RE) as [_ C]. rewrite N in C. exact C.
  Qed.
End Deco.
