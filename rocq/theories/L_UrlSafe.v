(** URL-encoded requests do nothing undefined but for a '%' at the end of a value. *)
From Coq Require Import Lia.
From Verif Require Import Base Value Text M_Marshal M_BinUnmarshal M_TreeBuilder M_Base64 M_Iso M_Url M_Http M_HttpIO M_Registry M_Server S_Url S_Value S_Server
  L_Base L_Dup L_Url L_Xml4 L_XmlSafe.

Lemma urldecode_dangling : forall s, urldecode s = UB <-> dangling s.
Proof.
  assert (G : forall n s, (List.length s <= n)%nat -> (urldecode s = UB <-> dangling s)).
  { induction n as [|n IH]; intros s L.
    - destruct s; [|cbn in L; lia]. split; [discriminate|intro H; inversion H].
    - destruct s as [|c r]; [split; [discriminate|intro H; inversion H]|]. cbn [urldecode]. cbn [List.length] in L.
      assert (K : forall t (k : bytes -> res bytes), (forall x, k x <> UB) -> bind (urldecode t) k = UB <-> urldecode t = UB).
      { intros t k HK. destruct (urldecode t) as [x|e|]; cbn [bind]; [|split; discriminate|tauto]. split; [intro H; destruct (HK x H)|discriminate]. }
      destruct (is_char 37 c) eqn:E.
      + assert (EC : c = x25) by (apply b2z_inj; unfold is_char in E; apply Z.eqb_eq in E; exact E). subst c.
        destruct r as [|a [|b r']].
        * split; [intros _; constructor|reflexivity].
        * split; [discriminate|]. intro H. inversion H; subst. match goal with X : _ <> 37 |- _ => destruct (X eq_refl) end.
        * rewrite K by discriminate. rewrite IH by (cbn in L; lia). split; [apply dangling_escape|]. intro H. inversion H; subst; [match goal with X : _ <> 37 |- _ => destruct (X eq_refl) end|assumption].
      + assert (EC : b2z c <> 37) by (unfold is_char in E; apply Z.eqb_neq in E; exact E).
        assert (X : bind (urldecode r) (fun t => Ok (x20 :: t)) = UB <-> dangling (c :: r)).
        { rewrite K by discriminate. rewrite IH by lia. split; [apply dangling_char; exact EC|]. intro H. inversion H; subst; try assumption; destruct (EC eq_refl). }
        destruct (is_char 43 c); [exact X|]. rewrite <- X. rewrite !K by discriminate. tauto. }
  intro s. apply (G (List.length s)). lia.
Qed.

Lemma break_at_spec : forall sep s a r, break_at sep s = (a, Some r) -> exists c, b2z c = sep /\ s = a ++ c :: r /\ forall x, In x a -> b2z x <> sep.
Proof.
  intros sep. induction s as [|c s IH]; intros a r H; [discriminate|]. cbn [break_at] in H. destruct (is_char sep c) eqn:E.
  - inversion H; subst. exists c. unfold is_char in E. apply Z.eqb_eq in E. split; [exact E|]. split; [reflexivity|]. intros x [].
  - destruct (break_at sep s) as [a' b'] eqn:EB. inversion H; subst. destruct (IH a' r eq_refl) as (c' & X & -> & F). exists c'. split; [exact X|]. split; [reflexivity|].
    intros x [<-|I]; [unfold is_char in E; apply Z.eqb_neq in E; exact E|apply F; exact I].
Qed.
Lemma split_at_cons : forall sep s, exists y ys, split_at sep s = y :: ys.
Proof. intros sep s. destruct s as [|c s]; cbn [split_at]; [eauto|]. destruct (is_char sep c); [eauto|]. destruct (split_at sep s); eauto. Qed.
Definition stops (sep : Z) (b : bytes) : Prop := b = [] \/ exists c b', b2z c = sep /\ b = c :: b'.
Lemma split_at_parts : forall sep s y ys, split_at sep s = y :: ys ->
  (exists b, s = y ++ b /\ stops sep b /\ forall x, In x y -> b2z x <> sep) /\
  (forall seg, In seg ys -> exists a c b, b2z c = sep /\ s = a ++ c :: seg ++ b /\ stops sep b /\ forall x, In x seg -> b2z x <> sep).
Proof.
  intros sep. induction s as [|c s IH]; intros y ys H; cbn [split_at] in H.
  - inversion H; subst. split; [exists []; repeat split; [left; reflexivity|intros x []]|intros seg []].
  - destruct (split_at_cons sep s) as (z & zs & EZ). rewrite EZ in H. destruct (IH _ _ EZ) as ((b & EB & B & F) & R). unfold is_char in H. destruct (Z.eqb_spec (b2z c) sep) as [EC|EC].
    + inversion H; subst y ys. split; [exists (c :: s); repeat split; [right; eauto|intros x []]|]. intros seg [<-|I].
      * exists [], c, b. repeat split; auto. cbn [app]. rewrite EB. reflexivity.
      * destruct (R seg I) as (a & c' & b' & X & ES & Y). exists (c :: a), c', b'. split; [exact X|]. split; [rewrite ES; reflexivity|exact Y].
    + inversion H; subst y ys. split.
      * exists b. split; [rewrite EB; reflexivity|]. split; [exact B|]. intros x [<-|I]; auto.
      * intros seg I. destruct (R seg I) as (a & c' & b' & X & ES & Y). exists (c :: a), c', b'. split; [exact X|]. split; [rewrite ES; reflexivity|exact Y].
Qed.
Lemma split_at_spec : forall sep s seg, In seg (split_at sep s) -> exists a b, s = a ++ seg ++ b /\ (a = [] \/ exists a' c, b2z c = sep /\ a = a' ++ [c]) /\
  stops sep b /\ forall x, In x seg -> b2z x <> sep.
Proof.
  intros sep s seg H. destruct (split_at_cons sep s) as (y & ys & E). rewrite E in H. destruct (split_at_parts _ _ _ _ E) as ((b & EB & B & F) & R). destruct H as [<-|I].
  - exists [], b. auto.
  - destruct (R seg I) as (a & c & b' & X & -> & Y). exists (a ++ [c]), b'. rewrite <- app_assoc. split; [reflexivity|]. split; [right; eauto|exact Y].
Qed.

Lemma values_of_ub : forall segs m, values_of segs m = UB -> exists seg name raw, In seg segs /\ break_at 61 seg = (name, Some raw) /\ dangling raw.
Proof.
  induction segs as [|s segs IH]; intros m H; [discriminate|]. cbn [values_of] in H. destruct (break_at 61 s) as [name [raw|]] eqn:EB.
  - destruct (urldecode raw) as [d|e|] eqn:ED; cbn [bind] in H; [|discriminate|exists s, name, raw; split; [left; reflexivity|split; [exact EB|apply urldecode_dangling; exact ED]]].
    destruct (resolve_type (unquote d)) as [k|e|] eqn:ER; cbn [bind] in H; [|discriminate|].
    + destruct (IH _ H) as (seg & n & r & I & X). exists seg, n, r. split; [right; exact I|exact X].
    + exfalso. revert ER. unfold resolve_type. destruct (unquote d) as [|c v]; [discriminate|]. repeat match goal with |- context [if ?b then _ else _] => destruct b end; discriminate.
  - destruct (IH _ H) as (seg & n & r & I & X). exists seg, n, r. split; [right; exact I|exact X].
Qed.
Lemma values_of_bad : forall body, values_of (split_at 38 body) [] = UB -> bad_form body.
Proof.
  intros body H. destruct (values_of_ub _ _ H) as (seg & name & raw & I & EB & D). destruct (split_at_spec _ _ _ I) as (a & b & -> & A & B & F).
  destruct (break_at_spec _ _ _ _ EB) as (c & EC & ES & N). assert (c = x3d) by (apply b2z_inj; exact EC). subst c seg.
  exists a, name, raw, b. split; [rewrite <- !app_assoc; reflexivity|]. split; [|split; [|repeat split]].
  - destruct A as [->|(a' & c & X & ->)]; [auto|]. right. exists a'. f_equal. f_equal. apply b2z_inj. exact X.
  - destruct B as [->|(c & b' & X & ->)]; [auto|]. right. exists b'. f_equal. apply b2z_inj. exact X.
  - intro Q. apply (F x26); [apply in_or_app; auto|reflexivity].
  - intro Q. apply (N x3d); [exact Q|reflexivity].
  - intro Q. apply (F x26); [apply in_or_app; right; right; exact Q|reflexivity].
  - exact D.
Qed.

(** No name without values. *)
Lemma values_of_full : forall segs m m', values_of segs m = Ok m' -> increasing m -> Forall (fun kv => snd kv <> []) m -> Forall (fun kv => snd kv <> []) m'.
Proof.
  induction segs as [|s segs IH]; intros m m' H INC F; cbn [values_of] in H; [inversion H; subst; exact F|].
  destruct (break_at 61 s) as [name [raw|]]; [|eapply IH; eauto]. destruct (urldecode raw) as [d|e|]; try discriminate. cbn [bind] in H.
  destruct (resolve_type (unquote d)) as [k|e|]; try discriminate. cbn [bind] in H. eapply IH; [exact H|apply map_set_increasing; exact INC|].
  apply Forall_forall. intros [k' x] I. unfold values_add in I.
  revert I. set (new := match map_get name m with Some l => l ++ [(k, unquote d)] | None => [(k, unquote d)] end).
  assert (NE : new <> []) by (unfold new; destruct (map_get name m) as [[|]|]; discriminate). clearbody new. clear - F NE. induction m as [|[q y] m IM]; cbn [map_set]; intro I.
  - destruct I as [E|[]]. inversion E; subst. exact NE.
  - inversion F; subst. destruct (bytes_cmp name q).
    + destruct I as [E|I]; [inversion E; subst; exact NE|]. rewrite Forall_forall in H2. exact (H2 _ I).
    + destruct I as [E|I]; [inversion E; subst; exact NE|]. rewrite Forall_forall in F. exact (F _ I).
    + destruct I as [E|I]; [inversion E; subst; exact H1|]. apply IM; auto.
Qed.

(** How many containers are open. *)
Fixpoint depth (n : nat) (es : list event) : option nat :=
  match es with
  | [] => Some n
  | EOpenStruct _ :: r | EOpenArray _ :: r => depth (S n) r
  | ECloseStruct :: r | ECloseArray :: r => match n with O => None | S n => depth n r end
  | _ :: r => depth n r
  end.
Lemma depth_app : forall a b n, depth n (a ++ b) = match depth n a with Some m => depth m b | None => None end.
Proof. induction a as [|e a IH]; intros b n; [reflexivity|]. cbn [app depth]. destruct e; try apply IH; destruct n; auto. Qed.
Lemma tb_events_safe : forall val es t st, tinv st t -> depth (List.length st) es <> None -> snd (tb_events val t es) <> Some Undef /\ exists st', tinv st' (fst (tb_events val t es)).
Proof.
  intros val. induction es as [|e es IH]; intros t st TI D; [split; [discriminate|exists st; exact TI]|]. cbn [tb_events].
  assert (GO : forall st', snd (tb_step val t e) <> Some Undef -> tinv st' (fst (tb_step val t e)) -> (snd (tb_step val t e) = None -> depth (List.length st') es <> None) ->
    snd (match tb_step val t e with (t', None) => tb_events val t' es | x => x end) <> Some Undef /\
    exists st'', tinv st'' (fst (match tb_step val t e with (t', None) => tb_events val t' es | x => x end))).
  { intros st' S T DD. destruct (tb_step val t e) as [t' [f|]]; cbn [fst snd] in *; [split; [exact S|eauto]|]. exact (IH t' st' T (DD eq_refl)). }
  pose proof (fun N => tinv_step val st t e TI N) as TS.
  destruct e; try (destruct (TS I) as [A B]; apply (GO st A B); intros _; exact D).
  - destruct (tinv_open st t (BStruct []) KStruct TI) as [A B]. cbn [tb_step] in *. apply (GO _ A B). intro E. rewrite E. exact D.
  - destruct st as [|k st]; [cbn in D; congruence|]. destruct (tinv_close st t k TI) as [A B]. cbn [tb_step] in *. apply (GO _ A B). intros _. exact D.
  - destruct (tinv_open st t (BArr []) KArray TI) as [A B]. cbn [tb_step] in *. apply (GO _ A B). intro E. rewrite E. exact D.
  - destruct st as [|k st]; [cbn in D; congruence|]. destruct (tinv_close st t k TI) as [A B]. cbn [tb_step] in *. apply (GO _ A B). intros _. exact D.
Qed.

Section Build.
  Variable strtod : bytes -> option Z * bool.
  Variable erange : bool.

  (** A trace that opens what it closes, and does nothing undefined. *)
  Definition level (a : trace) : Prop := snd a <> Some Undef /\ forall n, exists m, depth n (fst a) = Some m /\ (snd a = None -> m = n).
  Lemma level_then : forall a k, level a -> level k -> level (then_ a k).
  Proof.
    intros [l [f|]] [l' f'] A K; unfold then_; [exact A|]. cbn [fst snd] in *. destruct A as [_ A], K as [K1 K]. split; [exact K1|]. intro n. destruct (A n) as (m & E & X). cbn [fst snd] in *.
    rewrite depth_app, E. rewrite (X eq_refl). exact (K n).
  Qed.
  Lemma level_seq : forall l, Forall level l -> level (seq_trace l).
  Proof. induction 1; [split; [discriminate|]; intro n; exists n; auto|]. cbn [seq_trace]. apply level_then; assumption. Qed.
  Lemma level_build : forall x, level (of_res (build_one strtod erange x)).
  Proof.
    assert (ERR : forall e, level (of_res (Err e))) by (intro e; split; [discriminate|]; intro n; exists n; auto).
    assert (ONE : forall e, match e with EOpenStruct _ | EOpenArray _ | ECloseStruct | ECloseArray => False | _ => True end -> level (of_res (Ok [e]))).
    { intros e H. split; [discriminate|]. intro n. exists n. destruct e; try contradiction; auto. }
    intros [k s]. unfold build_one. destruct k; try (apply ONE; exact I).
    - split; [discriminate|]. intro n. exists n. auto.
    - destruct (negb _); [apply ERR|]. destruct (_ || _); [apply ERR|apply ONE; exact I].
    - destruct (strtod (c_str s)) as [[d|] e]; [|apply ERR]. destruct (_ || _); [apply ERR|apply ONE; exact I].
    - pose proof (parse_iso_ub s) as U. destruct (parse_iso s); cbn [bind]; [apply ONE; exact I|apply ERR|congruence].
  Qed.
  Lemma level_dump : forall kv, snd kv <> [] -> level (dump_member strtod erange kv).
  Proof.
    intros [name l] NE. cbn [snd] in NE. unfold dump_member. apply level_then; [split; [discriminate|]; intro n; exists n; auto|].
    destruct (ends_brackets name).
    - assert (A : level (seq_trace (map (fun x => of_res (build_one strtod erange x)) l))).
      { apply level_seq. apply Forall_map. apply Forall_forall. intros. apply level_build. }
      unfold then_. destruct (seq_trace _) as [l' f]. destruct A as [A1 A]. cbn [fst snd] in *. destruct f as [f|].
      + split; [exact A1|]. intro n. destruct (A (S n)) as (m & E & X). exists m. split; [exact E|discriminate].
      + split; [discriminate|]. intro n. destruct (A (S n)) as (m & E & X). exists n. cbn [fst snd app depth]. rewrite depth_app, E. rewrite (X eq_refl). auto.
    - destruct l; [congruence|]. apply level_build.
  Qed.

  Lemma url_finish_safe : forall method body, (snd (url_finish strtod erange method body) = Some Undef -> bad_form body) /\ depth 0 (fst (url_finish strtod erange method body)) <> None.
  Proof.
    intros method body. unfold url_finish. destruct (values_of (split_at 38 body) []) as [m|e|] eqn:EV.
    - pose proof (values_of_full _ _ _ EV I ltac:(constructor)) as F.
      assert (A : level (seq_trace (map (dump_member strtod erange) m))).
      { apply level_seq. apply Forall_map. eapply Forall_impl; [|exact F]. intros kv. apply level_dump. }
      unfold then_. destruct (seq_trace _) as [l' f]. destruct A as [A1 A]. cbn [fst snd] in *. destruct (A 1%nat) as (d & E & X). destruct f as [f|].
      + cbn [fst snd app depth]. split; [congruence|]. rewrite E. discriminate.
      + cbn [fst snd app depth]. split; [congruence|]. rewrite depth_app, E. rewrite (X eq_refl). discriminate.
    - cbn. split; discriminate.
    - cbn. split; [|discriminate]. intros _. apply values_of_bad. exact EV.
  Qed.
End Build.

(** The unmarshaller. *)
Lemma url_um_take : forall strtod erange val path pieces s, um_all (url_um strtod erange val path) s pieces = ((fst s ++ concat pieces, snd s), None).
Proof.
  intros strtod erange val path. induction pieces as [|d ps IH]; intros [b t]; cbn [um_all concat fst snd]; [rewrite app_nil_r; reflexivity|].
  change (um_take (url_um strtod erange val path) (b, t) d) with ((b ++ d, t), @None fail). cbv iota beta. rewrite IH. cbn [fst snd]. rewrite app_assoc. reflexivity.
Qed.
Lemma url_um_finish : forall strtod erange val path body,
  (snd (um_finish (url_um strtod erange val path) (body, tb_init)) = UB -> bad_form body) /\
  tb_data (um_builder (url_um strtod erange val path) (fst (um_finish (url_um strtod erange val path) (body, tb_init)))) <> UB.
Proof.
  intros strtod erange val path body. cbn [um_finish um_builder url_um fst snd]. destruct (url_finish_safe strtod erange (url_method path) body) as [A D].
  destruct (url_finish strtod erange (url_method path) body) as [es f]. cbn [fst snd] in *. destruct (tb_events_safe val es tb_init [] tinv_init D) as [B (st & T)].
  destruct (tb_events val tb_init es) as [t [[e|]|]]; cbn [fst snd] in *; [| congruence|].
  - split; [discriminate|eapply tinv_data; eauto].
  - split; [destruct f as [[e|]|]; try discriminate; tauto|eapply tinv_data; eauto].
Qed.
