(** Lemmas about the handlers of the web frameworks. *)
From Coq Require Import Lia.
From Verif Require Import Base Value Text Unicode M_Marshal M_BinUnmarshal M_Xml M_XmlUm M_Python M_PyRegistry M_PyDumps M_PyHandlers
  S_Value S_Wire S_Python S_PyHandlers L_Base L_Python L_PyDumps.

Lemma str_eqb_eq : forall a b, str_eqb a b = true <-> a = b.
Proof. intros a b. unfold str_eqb. destruct (list_eq_dec Z.eq_dec a b); split; congruence. Qed.
Lemma str_eqb_refl : forall a, str_eqb a a = true.
Proof. intros a. apply str_eqb_eq. reflexivity. Qed.
Lemma str_eqb_neq : forall a b, a <> b -> str_eqb a b = false.
Proof. intros a b H. destruct (str_eqb a b) eqn:E; [|reflexivity]. apply str_eqb_eq in E. contradiction. Qed.
Lemma str_in_in : forall s l, str_in s l = true <-> In s l.
Proof.
  intros s l. unfold str_in. rewrite existsb_exists. split; [intros (x & I & E); apply str_eqb_eq in E; subst; exact I|]. intros I. exists s. split; [exact I|apply str_eqb_refl].
Qed.
Lemma str_in_false : forall s l, ~ In s l -> str_in s l = false.
Proof. intros s l H. destruct (str_in s l) eqn:E; [|reflexivity]. apply str_in_in in E. contradiction. Qed.

(** ** White space *)
Lemma space_white : forall c, py_space c = true <-> white c.
Proof. intros c. unfold py_space, white. lia. Qed.
Lemma space_false : forall c, ~ white c -> py_space c = false.
Proof. intros c H. destruct (py_space c) eqn:E; [|reflexivity]. apply space_white in E. contradiction. Qed.
Lemma drop_spec : forall s, exists sp, s = sp ++ drop_space s /\ Forall white sp.
Proof.
  induction s as [|c s (sp & E & F)]; [exists []; split; [reflexivity|constructor]|]. cbn [drop_space]. destruct (py_space c) eqn:EC; [|exists []; split; [reflexivity|constructor]].
  exists (c :: sp). split; [cbn [app]; congruence|]. constructor; [apply space_white; exact EC|exact F].
Qed.
Lemma drop_white : forall sp s, Forall white sp -> drop_space (sp ++ s) = drop_space s.
Proof. induction sp as [|c sp IH]; intros s F; [reflexivity|]. inversion F; subst. cbn [app drop_space]. replace (py_space c) with true by (symmetry; apply space_white; assumption). apply IH. assumption. Qed.
Lemma drop_first : forall c s, ~ white c -> drop_space (c :: s) = c :: s.
Proof. intros c s H. cbn [drop_space]. rewrite space_false by exact H. reflexivity. Qed.
Lemma strip_spec : forall s, exists sp1 sp2, s = sp1 ++ py_strip s ++ sp2 /\ Forall white sp1 /\ Forall white sp2.
Proof.
  intros s. destruct (drop_spec s) as (sp1 & E1 & F1). destruct (drop_spec (rev (drop_space s))) as (sp2 & E2 & F2). exists sp1, (rev sp2). unfold py_strip. split; [|split; [exact F1|apply Forall_rev; exact F2]].
  rewrite <- rev_app_distr, <- E2, rev_involutive. exact E1.
Qed.
Lemma strip_name : forall sp1 t sp2, Forall white sp1 -> Forall white sp2 -> type_name t -> py_strip (sp1 ++ t ++ sp2) = t.
Proof.
  intros sp1 t sp2 F1 F2 (_ & (a & r & E & NA) & (r' & b & E' & NB)). unfold py_strip. rewrite drop_white by exact F1.
  assert (X : drop_space (t ++ sp2) = t ++ sp2) by (rewrite E; cbn [app]; apply drop_first; exact NA). rewrite X, rev_app_distr, drop_white by (apply Forall_rev; exact F2).
  assert (Y : drop_space (rev t) = rev t) by (rewrite E', rev_app_distr; cbn [rev app]; apply drop_first; exact NB). rewrite Y. apply rev_involutive.
Qed.

(** ** Commas *)
Lemma split_not_nil : forall s, exists x l, py_split s = x :: l.
Proof. intros [|c s]; [cbn; eauto|]. cbn [py_split]. destruct (c =? 44); [eauto|]. destruct (py_split s); eauto. Qed.
Lemma split_shape : forall s x l, py_split s = x :: l -> s = x ++ flat_map (cons 44) l /\ Forall (fun e => ~ In 44 e) (x :: l).
Proof.
  induction s as [|c s IH]; intros x l H; cbn [py_split] in H; [inversion H; subst; split; [reflexivity|constructor; [intros []|constructor]]|].
  destruct (split_not_nil s) as (y & m & E). rewrite E in H. destruct (IH _ _ E) as [S F]. destruct (Z.eqb_spec c 44) as [->|NC]; inversion H; subst.
  - cbn [flat_map app]. split; [reflexivity|]. constructor; [intros []|exact F].
  - cbn [app]. split; [reflexivity|]. inversion F; subst. constructor; [|assumption]. intros [X|X]; [congruence|contradiction].
Qed.
Lemma split_comma : forall e s, ~ In 44 e -> py_split (e ++ 44 :: s) = e :: py_split s.
Proof.
  induction e as [|c e IH]; intros s H; [reflexivity|]. cbn [app py_split]. destruct (Z.eqb_spec c 44) as [->|NC]; [destruct H; left; reflexivity|]. rewrite IH; [reflexivity|]. intros X. apply H. right. exact X.
Qed.
Lemma split_last : forall e, ~ In 44 e -> py_split e = [e].
Proof.
  induction e as [|c e IH]; intros H; [reflexivity|]. cbn [py_split]. destruct (Z.eqb_spec c 44) as [->|NC]; [destruct H; left; reflexivity|]. rewrite IH; [reflexivity|]. intros X. apply H. right. exact X.
Qed.
Lemma split_before : forall b s, exists l, py_split (b ++ 44 :: s) = l ++ py_split s.
Proof.
  induction b as [|c b IH]; intros s; [exists [[]]; reflexivity|]. destruct (IH s) as [l E]. cbn [app py_split]. rewrite E. destruct (c =? 44); [exists ([] :: l); reflexivity|].
  destruct l as [|x l]; [|exists ((c :: x) :: l); reflexivity]. cbn [app] in *. exfalso. clear IH.
  assert (L : lt (List.length (py_split s)) (List.length (py_split (b ++ 44 :: s)))); [|rewrite E in L; lia].
  clear E. induction b as [|d b IB]; [cbn; lia|]. cbn [app py_split]. destruct (d =? 44); [cbn [List.length]; lia|]. destruct (py_split (b ++ 44 :: s)); cbn [List.length] in *; lia.
Qed.
Lemma not_white_comma : forall l, Forall white l -> ~ In 44 l.
Proof. intros l F I. rewrite Forall_forall in F. specialize (F 44 I). unfold white in F. lia. Qed.
Lemma listed_in : forall a t, type_name t -> (In t (map py_strip (py_split a)) <-> listed a t).
Proof.
  intros a t TN. split.
  - intros I. apply in_map_iff in I as (e & ES & I). destruct (split_not_nil a) as (x & l & E). destruct (split_shape _ _ _ E) as [S F]. rewrite E in I.
    destruct (strip_spec e) as (sp1 & sp2 & EE & F1 & F2). rewrite ES in EE. destruct I as [->|I].
    + exists [], sp1, sp2, (flat_map (cons 44) l). split; [rewrite S, EE; cbn [app]; rewrite <- !app_assoc; reflexivity|]. split; [exact F1|]. split; [exact F2|]. split; [left; reflexivity|].
      destruct l; [left; reflexivity|right; eexists; reflexivity].
    + apply in_split in I as (l1 & l2 & ->). exists (x ++ flat_map (cons 44) l1 ++ [44]), sp1, sp2, (flat_map (cons 44) l2).
      split; [rewrite S, EE, flat_map_app; cbn [flat_map]; rewrite <- !app_assoc; cbn [app]; rewrite <- !app_assoc; reflexivity|]. split; [exact F1|]. split; [exact F2|]. split.
      * right. exists (x ++ flat_map (cons 44) l1). rewrite <- app_assoc. reflexivity.
      * destruct l2; [left; reflexivity|right; eexists; reflexivity].
  - intros (before & sp1 & sp2 & after & -> & F1 & F2 & B & A). apply in_map_iff. exists (sp1 ++ t ++ sp2). split; [apply strip_name; assumption|].
    assert (NC : ~ In 44 (sp1 ++ t ++ sp2)).
    { rewrite !in_app_iff. intros [X|[X|X]]; [exact (not_white_comma _ F1 X)|exact (proj1 TN X)|exact (not_white_comma _ F2 X)]. }
    assert (K : In (sp1 ++ t ++ sp2) (py_split ((sp1 ++ t ++ sp2) ++ after))).
    { destruct A as [->|(b & ->)]; [rewrite app_nil_r, split_last by exact NC; left; reflexivity|]. rewrite split_comma by exact NC. left. reflexivity. }
    replace (before ++ sp1 ++ t ++ sp2 ++ after) with (before ++ (sp1 ++ t ++ sp2) ++ after) by (rewrite <- !app_assoc; reflexivity).
    destruct B as [->|(b & ->)]; [exact K|]. rewrite <- app_assoc. cbn [app]. destruct (split_before b ((sp1 ++ t ++ sp2) ++ after)) as [l E]. rewrite E, in_app_iff. right. exact K.
Qed.
Lemma accepts_one_spec : forall types a, Forall type_name types -> (existsb (fun t => str_in t types) (map py_strip (py_split a)) = true <-> accepts_one types a).
Proof.
  intros types a F. rewrite existsb_exists. rewrite Forall_forall in F. split.
  - intros (t & I & T). apply str_in_in in T. exists t. split; [exact T|]. apply listed_in; auto.
  - intros (t & T & L). exists t. split; [apply listed_in; auto|apply str_in_in; exact T].
Qed.
Lemma accepts_none : forall types a, Forall type_name types -> ~ accepts_one types a -> existsb (fun t => str_in t types) (map py_strip (py_split a)) = false.
Proof. intros types a F H. destruct (existsb _ _) eqn:E; [|reflexivity]. apply (accepts_one_spec types a F) in E. contradiction. Qed.

(** ** Status *)
Lemma key_eqb : forall k p, (match p with PyStr s => str_eqb s (ustr k) | _ => false end) = true <-> p = key k.
Proof. intros k p. unfold key. destruct p; try (split; discriminate). fold (ustr k). rewrite str_eqb_eq. split; [intros ->; reflexivity|congruence]. Qed.
Lemma has_key_in : forall k m, has_key k m = true <-> In (key k) (map fst m).
Proof.
  intros k m. unfold has_key. rewrite existsb_exists, in_map_iff. split.
  - intros (kv & I & E). apply key_eqb in E. eauto.
  - intros (kv & E & I). exists kv. split; [exact I|]. apply key_eqb. exact E.
Qed.
Lemma has_key_false : forall k m, ~ In (key k) (map fst m) -> has_key k m = false.
Proof. intros k m H. destruct (has_key k m) eqn:E; [|reflexivity]. apply has_key_in in E. contradiction. Qed.
Lemma find_key : forall k v (m : list (py * py)), NoDup (map fst m) -> In (key k, v) m -> find (fun kv => match fst kv with PyStr s => str_eqb s (ustr k) | _ => false end) m = Some (key k, v).
Proof.
  intros k v. induction m as [|[a b] m IH]; intros N I; [destruct I|]. inversion N; subst. cbn [find fst]. destruct I as [E|I].
  - inversion E; subst. replace (match key k with PyStr s => str_eqb s (ustr k) | _ => false end) with true by (symmetry; apply (key_eqb k (key k)); reflexivity). reflexivity.
  - destruct (match a with PyStr s => str_eqb s (ustr k) | _ => false end) eqn:E; [|apply IH; assumption]. apply (key_eqb k a) in E. subst a. exfalso. apply H1. apply in_map_iff. exists (key k, v). auto.
Qed.
Lemma find_none : forall k (m : list (py * py)), ~ In (key k) (map fst m) -> forall r, find (fun kv => match fst kv with PyStr s => str_eqb s (ustr k) | _ => false end) (m ++ r) = find (fun kv => match fst kv with PyStr s => str_eqb s (ustr k) | _ => false end) r.
Proof.
  intros k. induction m as [|[a b] m IH]; intros N r; [reflexivity|]. cbn [app find fst]. destruct (match a with PyStr s => str_eqb s (ustr k) | _ => false end) eqn:E.
  - apply (key_eqb k a) in E. subst a. destruct N. left. reflexivity.
  - apply IH. intros X. apply N. right. exact X.
Qed.
Lemma autostatus_is : forall p q, is_object p -> with_status p q -> autostatus p = q.
Proof.
  intros p q O H. destruct H as [p NM|m v I V F|m I M|m I M|m N M|m N M].
  - destruct p; try reflexivity. exfalso. eapply NM. reflexivity.
  - destruct O as [ND _]. unfold autostatus. replace (has_key "status" m) with true by (symmetry; apply has_key_in, in_map_iff; exists (key "status", v); auto).
    cbv zeta. rewrite (find_key "status" v m ND I). cbn [snd]. replace (is_200 v) with false; [rewrite andb_false_r; reflexivity|].
    destruct v; try reflexivity; [|exfalso; eapply F; reflexivity]. cbn [is_200]. symmetry. apply Z.eqb_neq. intros ->. apply V. reflexivity.
  - unfold autostatus. replace (has_key "status" m) with true by (symmetry; apply has_key_in, in_map_iff; exists (key "status", PyInt 200); auto).
    cbv zeta. replace (has_key "statusMessage" m) with true by (symmetry; apply has_key_in; exact M). reflexivity.
  - destruct O as [ND _]. unfold autostatus. replace (has_key "status" m) with true by (symmetry; apply has_key_in, in_map_iff; exists (key "status", PyInt 200); auto).
    cbv zeta. rewrite (find_key "status" _ m ND I), (has_key_false _ _ M). reflexivity.
  - unfold autostatus. rewrite (has_key_false _ _ N). cbv zeta. replace (has_key "statusMessage" (m ++ [(PyStr (ustr "status"), PyInt 200)])) with true; [reflexivity|].
    symmetry. apply has_key_in. rewrite map_app, in_app_iff. left. exact M.
  - unfold autostatus. rewrite (has_key_false _ _ N). cbv zeta. rewrite (find_none _ _ N). cbn [find fst]. rewrite str_eqb_refl. cbn [snd is_200].
    rewrite has_key_false; [cbn [negb andb Z.eqb Pos.eqb]; rewrite <- app_assoc; reflexivity|]. rewrite map_app, in_app_iff. intros [X|[X|[]]]; [contradiction|discriminate].
Qed.

(** ** Methods *)
Section Methods.
  Context {W : Type}.
  Lemma set_same : forall n (m : @hmethod W) l, find_method n (set_method n m l) = Some m.
  Proof.
    intros n m. induction l as [|[k x] l IH]; cbn [set_method find_method]; [rewrite str_eqb_refl; reflexivity|].
    destruct (str_eqb n k) eqn:E; cbn [find_method]; rewrite E; [reflexivity|exact IH].
  Qed.
  Lemma set_other : forall n n' (m : @hmethod W) l, n' <> n -> find_method n' (set_method n m l) = find_method n' l.
  Proof.
    intros n n' m l H. induction l as [|[k x] l IH]; cbn [set_method find_method]; [rewrite str_eqb_neq by exact H; reflexivity|].
    destruct (str_eqb n k) eqn:E; cbn [find_method].
    - apply str_eqb_eq in E. subst k. rewrite !str_eqb_neq by exact H. reflexivity.
    - destruct (str_eqb n' k); [reflexivity|exact IH].
  Qed.
  Lemma set_names : forall n (m : @hmethod W) l, map fst (set_method n m l) = if str_in n (map fst l) then map fst l else map fst l ++ [n].
  Proof.
    intros n m. induction l as [|[k x] l IH]; [reflexivity|]. cbn [set_method map fst]. unfold str_in in *. cbn [existsb]. destruct (str_eqb n k); [reflexivity|]. cbn [map fst orb]. rewrite IH. destruct (existsb (str_eqb n) (map fst l)); reflexivity.
  Qed.
  Lemma find_in : forall n (l : @hmethods W), find_method n l = None <-> ~ In n (map fst l).
  Proof.
    intros n. induction l as [|[k x] l IH]; cbn [find_method map fst]; [split; [intros _ []|reflexivity]|]. destruct (str_eqb n k) eqn:E.
    - apply str_eqb_eq in E. subst k. split; [discriminate|]. intros H. destruct H. left. reflexivity.
    - rewrite IH. split; [intros H [X|X]; [subst; rewrite str_eqb_refl in E; discriminate|contradiction]|]. intros H X. apply H. right. exact X.
  Qed.
End Methods.

(** ** The binary format in a message *)
Lemma starts_magic : forall ver c cs wire, (match c with PMethodCall _ | PMethodResponse | PFault _ _ => True | _ => False end) -> sent ver (c :: cs) = Ok wire -> 4 <= blen wire /\ is_magic wire = true.
Proof.
  intros ver c cs wire H S. unfold sent in S. cbn [bin_run] in S. destruct (bin_pack ver c) as [o [f|]] eqn:E.
  - cbn [fst snd] in S. destruct f; discriminate.
  - assert (X : exists r, o = magic ver ++ r) by (destruct c; try contradiction; cbn [bin_pack] in E; repeat match type of E with context [if ?b then _ else _] => destruct b end; inversion E; eexists; reflexivity).
    destruct X as [r ->]. destruct (bin_run ver cs) as [o2 [[]|]]; inversion S; subst. unfold magic, is_magic, blen. cbn [app List.length]. split; [lia|reflexivity].
Qed.

(** ** Registered methods *)
Section Registered.
  Context {W : Type}.
  Notation methods := (@hmethods W).
  Lemma registered_latest : forall (regs own : methods) n m, NoDup (map fst own) -> latest (own ++ regs) n m -> find_method n (registered own regs) = Some m.
  Proof.
    intros regs. induction regs as [|[k x] regs IH] using rev_ind; intros own n m N (before & after & E & NA).
    - cbn. rewrite app_nil_r in E. subst own. clear NA. induction before as [|[a b] before IB]; cbn [app find_method map fst] in *; [rewrite str_eqb_refl; reflexivity|]. inversion N; subst.
      rewrite str_eqb_neq; [auto|]. intros <-. apply H1. rewrite map_app. apply in_or_app. right. left. reflexivity.
    - unfold registered. rewrite fold_left_app. cbn [fold_left fst snd]. fold (registered own regs). rewrite app_assoc in E. destruct after as [|y after _] using rev_ind.
      + apply app_inj_tail in E as [_ E]. inversion E; subst. apply set_same.
      + rewrite map_app in NA. change ((n, m) :: after ++ [y]) with (((n, m) :: after) ++ [y]) in E. rewrite app_assoc in E. apply app_inj_tail in E as [E EY]. subst y.
        rewrite set_other; [|intros ->; apply NA, in_or_app; right; left; reflexivity]. apply IH; [exact N|]. exists before, after. split; [exact E|]. intros X. apply NA, in_or_app. left. exact X.
  Qed.
  Lemma filter_snoc : forall x n l, NoDup l -> filter (fun y => negb (str_eqb x y)) (l ++ [n]) = filter (fun y => negb (str_eqb x y)) l ++ (if str_eqb x n then [] else [n]).
  Proof. intros. rewrite filter_app. cbn [filter]. destruct (str_eqb x n); reflexivity. Qed.
  Lemma first_in : forall l n, In n (first_ones l) <-> In n l.
  Proof.
    induction l as [|x l IH]; intros n; [reflexivity|]. cbn [first_ones In]. rewrite filter_In, IH. split; [intros [A|[A _]]; auto|]. intros [A|A]; [auto|].
    destruct (str_eqb x n) eqn:E; [left; apply str_eqb_eq; exact E|right; auto].
  Qed.
  Lemma first_snoc : forall l n, first_ones (l ++ [n]) = if str_in n l then first_ones l else first_ones l ++ [n].
  Proof.
    induction l as [|x l IH]; intros n; [reflexivity|]. cbn [app first_ones]. rewrite IH. unfold str_in in *. cbn [existsb]. destruct (str_eqb n x) eqn:E.
    - apply str_eqb_eq in E. subst x. cbn [orb]. destruct (existsb _ l); [reflexivity|]. rewrite filter_app. cbn [filter]. rewrite str_eqb_refl. cbn [negb]. rewrite app_nil_r. reflexivity.
    - cbn [orb]. destruct (existsb _ l); [reflexivity|]. rewrite filter_app. cbn [filter]. rewrite (str_eqb_neq x n); [reflexivity|]. intros ->. rewrite str_eqb_refl in E. discriminate.
  Qed.
  Lemma first_same : forall l, NoDup l -> first_ones l = l.
  Proof.
    induction l as [|x l IH]; intros N; [reflexivity|]. inversion N; subst. cbn [first_ones]. rewrite IH by assumption. f_equal. clear - H1. induction l as [|y l IL]; [reflexivity|]. cbn [filter].
    rewrite str_eqb_neq; [|intros ->; apply H1; left; reflexivity]. cbn [negb]. rewrite IL; [reflexivity|]. intros X. apply H1. right. exact X.
  Qed.
  Lemma str_in_first : forall n l, str_in n (first_ones l) = str_in n l.
  Proof. intros n l. destruct (str_in n l) eqn:E; [apply str_in_in, first_in, str_in_in; exact E|apply str_in_false; rewrite first_in; intros X; apply str_in_in in X; congruence]. Qed.
  Lemma registered_names : forall (regs own : methods), NoDup (map fst own) -> map fst (registered own regs) = first_ones (map fst (own ++ regs)).
  Proof.
    intros regs own N. induction regs as [|[k x] regs IH] using rev_ind; [cbn; rewrite app_nil_r; symmetry; apply first_same; exact N|].
    unfold registered. rewrite fold_left_app. cbn [fold_left fst snd]. fold (registered own regs). rewrite set_names, IH, app_assoc, (map_app fst (own ++ regs)). cbn [map fst]. rewrite first_snoc, str_in_first. reflexivity.
  Qed.
  Lemma registered_none : forall (regs own : methods) n, NoDup (map fst own) -> ~ In n (map fst (own ++ regs)) -> find_method n (registered own regs) = None.
  Proof. intros regs own n N H. apply find_in. rewrite registered_names by exact N. rewrite first_in. exact H. Qed.
  Lemma own_flask_nodup : forall i, NoDup (map fst (@own_flask W i)).
  Proof.
    intros [|]; cbn [own_flask app map fst].
    - repeat (constructor; [vm_compute; intuition discriminate|]). constructor.
    - repeat (constructor; [vm_compute; intuition discriminate|]). constructor.
  Qed.
  Lemma own_aiohttp_nodup : forall i, NoDup (map fst (@own_aiohttp W i)).
  Proof. intros [|]; cbn [own_aiohttp map fst]; repeat (constructor; [vm_compute; intuition discriminate|]); constructor. Qed.
End Registered.
