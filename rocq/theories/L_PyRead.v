(** Lemmas: what the objects the builder makes have to do with the values. *)
From Coq Require Import Lia Permutation.
From Verif Require Import Base Value Unicode M_Marshal M_BinUnmarshal S_Value S_Wire M_Python S_Python L_Base L_Bits L_BinUnmarshal L_RoundTrip L_PyText L_PyBuild.
Ltac Zify.zify_post_hook ::= Z.div_mod_to_equations.

Lemma ascii_text : forall s, existsb (fun c => 128 <=? b2z c) s = false -> same_str s (map b2z s).
Proof.
  induction s as [|a s IH]; intro H; [split; [constructor|reflexivity]|]. cbn [existsb] in H. apply orb_false_iff in H as [A B]. destruct (IH B) as [F E].
  pose proof (b2z_range a). split; [constructor; [unfold uchar; lia|exact F]|]. cbn [map flat_map]. unfold utf8_char at 1. destruct (Z.ltb_spec (b2z a) 128); [|lia].
  cbn [app]. rewrite z2b_b2z. f_equal. exact E.
Qed.
Lemma same_str_inj : forall s t u, same_str s u -> same_str t u -> s = t.
Proof. intros s t u [_ ->] [_ ->]. reflexivity. Qed.
Lemma same_str_fun : forall s u w, same_str s u -> same_str s w -> u = w.
Proof. intros s u w A B. pose proof (decode_same false _ _ A). pose proof (decode_same false _ _ B). congruence. Qed.

Lemma c_string_id : forall s, ~ In x00 s -> c_string s = s.
Proof.
  induction s as [|a s IH]; intro N; cbn [c_string]; [reflexivity|]. destruct (Z.eqb_spec (b2z a) 0) as [E|E].
  - exfalso. apply N. left. rewrite <- (z2b_b2z a), E. reflexivity.
  - f_equal. apply IH. intro. apply N. right. auto.
Qed.
Lemma key_text : forall k, is_text k <-> exists u, key_of k = Some u.
Proof.
  intro k. unfold key_of. destruct (existsb _ k) eqn:E; [apply text_decode|]. split; [eauto|]. intros _. exists (map b2z k). apply ascii_text, E.
Qed.
Lemma key_same : forall k u, ~ In x00 k -> key_of k = Some u -> same_str k u.
Proof.
  intros k u N H. unfold key_of in H. destruct (existsb _ k) eqn:E; [apply decode_inv, H|]. rewrite c_string_id in H by auto. inversion H; subst. apply ascii_text, E.
Qed.

Lemma pystr_eqb_spec : forall a b, pystr_eqb a b = true <-> a = b.
Proof.
  induction a as [|x a IH]; intros [|y b]; cbn [pystr_eqb]; try (split; [discriminate|discriminate]); [split; reflexivity|].
  rewrite andb_true_iff, Z.eqb_eq, IH. split; [intros [-> ->]; reflexivity|intro E; inversion E; auto].
Qed.
Lemma dict_set_new : forall k v m, ~ In k (map fst m) -> dict_set k v m = m ++ [(k, v)].
Proof.
  induction m as [|[k' v'] m IH]; intro N; cbn [dict_set]; [reflexivity|]. destruct (pystr_eqb k k') eqn:E.
  - apply pystr_eqb_spec in E. exfalso. apply N. left. cbn. congruence.
  - cbn [app]. f_equal. apply IH. intro. apply N. right. auto.
Qed.

(** No struct has two members of one name. *)
Fixpoint uniq (v : value) : Prop :=
  match v with
  | VStruct m => NoDup (map fst m) /\ (fix all (l : list (bytes * value)) : Prop := match l with [] => True | (k, x) :: r => uniq x /\ all r end) m
  | VArray l => (fix all (l : list value) : Prop := match l with [] => True | x :: r => uniq x /\ all r end) l
  | VSecret x => uniq x
  | _ => True
  end.
Lemma all_values : forall (Q : value -> Prop) l,
  (fix all (l : list value) : Prop := match l with [] => True | x :: r => Q x /\ all r end) l <-> Forall Q l.
Proof. induction l as [|x l IH]; [split; auto|]. rewrite IH. split; [intros [A B]; auto|intro F; inversion F; auto]. Qed.
Lemma all_pairs : forall (Q : bytes * value -> Prop) l,
  (fix all (l : list (bytes * value)) : Prop := match l with [] => True | (k, x) :: r => Q (k, x) /\ all r end) l <-> Forall Q l.
Proof. induction l as [|[k x] l IH]; [split; auto|]. rewrite IH. split; [intros [A B]; auto|intro F; inversion F; auto]. Qed.
Lemma all_pairs2 : forall (Q R : bytes * value -> Prop) l,
  (fix all (l : list (bytes * value)) : Prop := match l with [] => True | (k, x) :: r => Q (k, x) /\ R (k, x) /\ all r end) l <-> Forall (fun kv => Q kv /\ R kv) l.
Proof. induction l as [|[k x] l IH]; [split; auto|]. rewrite IH. split; [intros (A & B & C); auto|intro F; inversion F; tauto]. Qed.
Lemma increasing_nodup : forall A (m : list (bytes * A)), increasing m -> NoDup (map fst m).
Proof.
  induction m as [|[k x] m IH]; intro I; cbn [map fst increasing] in *; [constructor|]. destruct I as [LT B]. constructor; [|auto].
  intro X. apply in_map_iff in X as ([k' x'] & E & I). cbn [fst] in E. subst. specialize (LT _ _ I). rewrite bytes_cmp_refl in LT. discriminate.
Qed.
Lemma wf_uniq : forall ver v, wf ver v -> uniq v.
Proof.
  induction v using value_nested_ind; intro W; cbn [uniq]; try exact I; auto.
  - apply wf_struct in W. destruct W as (_ & I & F). split; [apply increasing_nodup, I|].
    rewrite (all_pairs (fun kv => uniq (snd kv))). rewrite Forall_forall in *. intros kv HI. apply H; auto. apply F; auto.
  - apply wf_array in W. destruct W as (_ & F). rewrite all_values. rewrite Forall_forall in *. auto.
Qed.

Section Read.
  Variable host : datetime -> datetime.
  Variable native : bool.

  (** Values whose texts are UTF-8 become an object that is the value. *)
  Lemma texts_read : forall pass v, texts v -> uniq v -> no_nul_names v -> exists p, py_of host pass native v = Some p /\ reads host native v p.
  Proof.
    induction v using value_nested_ind; intros T U N; cbn [texts uniq no_nul_names] in *; try (eexists; split; [reflexivity|constructor]).
    - destruct T as [u S]. cbn [py_of]. rewrite (decode_same pass s u S). eexists. split; [reflexivity|constructor; exact S].
    - destruct T as [u S]. cbn [py_of]. rewrite (decode_same pass s u S). eexists. split; [reflexivity|constructor; exact S].
    - rewrite py_of_struct. rewrite (all_pairs2 (fun kv => is_text (fst kv)) (fun kv => texts (snd kv))) in T. destruct U as [D U].
      rewrite (all_pairs (fun kv => uniq (snd kv))) in U. rewrite (all_pairs2 (fun kv => ~ In x00 (fst kv)) (fun kv => no_nul_names (snd kv))) in N.
      assert (X : forall m, Forall (fun v => texts (snd v) -> uniq (snd v) -> no_nul_names (snd v) -> exists p, py_of host pass native (snd v) = Some p /\ reads host native (snd v) p) m ->
        Forall (fun kv => is_text (fst kv) /\ texts (snd kv)) m -> NoDup (map fst m) -> Forall (fun kv => uniq (snd kv)) m -> Forall (fun kv => ~ In x00 (fst kv) /\ no_nul_names (snd kv)) m ->
        forall acc, (forall kv u, In kv m -> same_str (fst kv) u -> ~ In u (map fst acc)) ->
        exists r, members_of host pass native m acc = Some (acc ++ r) /\
          Forall2 (fun kv kp => (exists u, fst kp = PyStr u /\ same_str (fst kv) u) /\ reads host native (snd kv) (snd kp)) m (map (fun kv => (PyStr (fst kv), snd kv)) r)).
      { clear. induction m as [|[k x] m IM]; intros HF HT HD HU HN acc FR; [exists []; cbn [members_of]; rewrite app_nil_r; split; [reflexivity|constructor]|].
        inversion HF as [|? ? F0 F']; inversion HT as [|? ? [TK TX] T']; inversion HD as [|? ? DK D']; inversion HU as [|? ? U0 U']; inversion HN as [|? ? [NK NX] N']; subst.
        cbn [fst snd] in *. destruct (proj1 (key_text k) TK) as [u K]. pose proof (key_same k u NK K) as SK. destruct (F0 TX U0 NX) as (p & EP & RP).
        cbn [members_of]. rewrite K, EP. rewrite dict_set_new by (apply (FR (k, x) u); [left; reflexivity|exact SK]).
        destruct (IM F' T' D' U' N' (acc ++ [(u, p)])) as (r & ER & FR2).
        { intros kv w I S. rewrite map_app, in_app_iff. intros [J|[J|[]]]; [revert J; apply (FR kv); [right; exact I|exact S]|]. cbn [fst] in J. subst w.
          apply DK. rewrite (same_str_inj _ _ _ SK S). apply in_map, I. }
        exists ((u, p) :: r). rewrite ER, <- app_assoc. split; [reflexivity|]. cbn [map fst snd]. constructor; [|exact FR2]. split; [|exact RP]. exists u. auto. }
      destruct (X m H T D U N [] ltac:(auto)) as (r & ER & F). cbn [app] in ER. rewrite ER. eexists. split; [reflexivity|]. constructor. exact F.
    - rewrite py_of_array. rewrite all_values in T, U, N.
      assert (X : exists r, items_of host pass native l = Some r /\ Forall2 (reads host native) l r).
      { induction l as [|x l IL]; [exists []; split; [reflexivity|constructor]|]. inversion H; inversion T; inversion U; inversion N; subst.
        destruct (H2 H6 H10 H14) as (p & E & R). destruct IL as (r & ER & FR); auto. exists (p :: r). cbn [items_of]. rewrite E, ER. split; [reflexivity|constructor; auto]. }
      destruct X as (r & ER & F). rewrite ER. eexists. split; [reflexivity|]. constructor. exact F.
    - destruct (IHv T U N) as (p & E & R). exists p. split; [exact E|]. constructor. exact R.
  Qed.

  (** Other values become none. *)
  Lemma read_texts : forall v p, py_of host false native v = Some p -> texts v.
  Proof.
    induction v using value_nested_ind; intros p E; cbn [texts]; try exact I.
    - cbn [py_of] in E. destruct (py_decode false s) eqn:D; [|discriminate]. apply text_decode. eauto.
    - cbn [py_of] in E. destruct (py_decode false s) eqn:D; [|discriminate]. apply text_decode. eauto.
    - rewrite py_of_struct in E. rewrite (all_pairs2 (fun kv => is_text (fst kv)) (fun kv => texts (snd kv))).
      assert (X : forall acc r, members_of host false native m acc = Some r -> Forall (fun kv => is_text (fst kv) /\ texts (snd kv)) m).
      { clear E. induction m as [|[k x] m IM]; intros acc r E; [constructor|]. inversion H; subst. cbn [members_of fst snd] in *.
        destruct (key_of k) as [u|] eqn:K; [|discriminate]. destruct (py_of host false native x) as [q|] eqn:P; [|discriminate].
        constructor; [|eapply IM; eauto]. split; [apply key_text; eauto|eapply H2; eauto]. }
      destruct (members_of host false native m []) eqn:M; [|discriminate]. eapply X; eauto.
    - rewrite py_of_array in E. rewrite all_values. destruct (items_of host false native l) as [r|] eqn:L; [|discriminate]. clear E. revert r L.
      induction l as [|x l IL]; intros r L; [constructor|]. inversion H; subst. cbn [items_of] in L.
      destruct (py_of host false native x) as [q|] eqn:P; [|discriminate]. destruct (items_of host false native l) as [r'|] eqn:L'; [|discriminate].
      constructor; eauto.
    - eapply IHv. exact E.
  Qed.

  (** There is at most one such object. *)
  Lemma reads_one : forall v p q, reads host native v p -> reads host native v q -> p = q.
  Proof.
    induction v using value_nested_ind; intros p q A B; inversion A; inversion B; subst; try reflexivity; try (f_equal; eapply same_str_fun; eassumption).
    - clear A B. f_equal. match goal with F1 : Forall2 _ ?l0 ?x, F2 : Forall2 _ ?l0 ?y |- ?x = ?y => revert F1 F2; revert x y; clear - H; rename l0 into ll end.
      induction ll as [|kv m IM]; intros m1 m2 F1 F2; inversion F1 as [|? y1 ? ? [(u & E1 & S1) R1]]; inversion F2 as [|? y2 ? ? [(w & E2 & S2) R2]]; subst; [reflexivity|]. inversion H as [|? ? P1 P2]; subst.
      f_equal; [|eapply IM; eauto].
      destruct y1 as [k1 x1], y2 as [k2 x2]. cbn [fst snd] in *. subst. f_equal; [f_equal; eapply same_str_fun; eassumption|eapply P1; eassumption].
    - clear A B. f_equal. match goal with F1 : Forall2 _ ?l0 ?x, F2 : Forall2 _ ?l0 ?y |- ?x = ?y => revert F1 F2; revert x y; clear - H; rename l0 into ll end.
      induction ll as [|x l IL]; intros l1 l2 F1 F2; inversion F1; inversion F2; subst; [reflexivity|]. inversion H as [|? ? P1 P2]; subst.
      f_equal; eauto.
    - eauto.
  Qed.
End Read.
