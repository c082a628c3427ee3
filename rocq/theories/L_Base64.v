(** Lemmas about Base64. *)
From Coq Require Import Lia.
From Verif Require Import Base M_Base64 S_Base64 L_Base.
Ltac Zify.zify_post_hook ::= Z.div_mod_to_equations.

(** ** Bit operations on bytes as arithmetic. *)
Lemma byte_bits : forall c, let u := b2z c in
  Z.shiftr u 2 = u / 4 /\ Z.shiftr u 4 = u / 16 /\ Z.shiftr u 6 = u / 64
  /\ Z.land u 3 = u mod 4 /\ Z.land u 15 = u mod 16 /\ Z.land u 63 = u mod 64
  /\ Z.shiftr (Z.land u 240) 4 = u / 16 /\ Z.shiftr (Z.land u 192) 6 = u / 64.
Proof. intros []; vm_compute; repeat split; reflexivity. Qed.

Lemma lor_shift : forall a b k, 0 <= k -> 0 <= b < 2 ^ k -> Z.lor (Z.shiftl a k) b = a * 2 ^ k + b.
Proof. intros. rewrite Z.shiftl_mul_pow2 by lia. apply lor_add_pow2; auto. Qed.

(** ** The alphabet *)
Lemma all64 : forall P : Z -> bool, forallb P (map Z.of_nat (seq 0 64)) = true -> forall i, 0 <= i < 64 -> P i = true.
Proof.
  intros P H i Hi. rewrite forallb_forall in H. apply H. apply in_map_iff. exists (Z.to_nat i).
  split; [lia|]. apply in_seq. lia.
Qed.

Lemma b64_char_ok : forall i, 0 <= i < 64 ->
  b64_table (b64_char i) = i /\ is_space (b64_char i) = false /\ (b2z (b64_char i) =? 61) = false.
Proof.
  intros i Hi.
  pose proof (all64 (fun i => (b64_table (b64_char i) =? i) && negb (is_space (b64_char i)) && negb (b2z (b64_char i) =? 61))
                ltac:(vm_compute; reflexivity) i Hi) as H. cbn beta in H.
  apply andb_true_iff in H. destruct H as [H H3]. apply andb_true_iff in H. destruct H as [H1 H2].
  apply Z.eqb_eq in H1. apply negb_true_iff in H2. apply negb_true_iff in H3. auto.
Qed.

Lemma rfc_digit_char : forall n, rfc_digit n = b64_char (n mod 64).
Proof. reflexivity. Qed.

(** The decoder on a full quad. *)
Lemma quad3 : forall d0 d1 d2 d3, 0 <= d0 < 64 -> 0 <= d1 < 64 -> 0 <= d2 < 64 -> 0 <= d3 < 64 ->
  b64_quad (b64_char d0) (b64_char d1) (b64_char d2) (b64_char d3)
  = ([z2b (d0 * 4 + d1 / 16); z2b (d1 * 16 + d2 / 4); z2b (d2 * 64 + d3)], true).
Proof.
  intros d0 d1 d2 d3 H0 H1 H2 H3. unfold b64_quad.
  destruct (b64_char_ok d0 H0) as (-> & _ & _). destruct (b64_char_ok d1 H1) as (-> & _ & _).
  destruct (b64_char_ok d2 H2) as (-> & _ & ->). destruct (b64_char_ok d3 H3) as (-> & _ & ->).
  rewrite !Z.shiftr_div_pow2 by lia. rewrite !lor_shift by lia.
  change (2 ^ 2) with 4. change (2 ^ 4) with 16. change (2 ^ 6) with 64. reflexivity.
Qed.
Lemma quad2 : forall d0 d1 d2, 0 <= d0 < 64 -> 0 <= d1 < 64 -> 0 <= d2 < 64 ->
  b64_quad (b64_char d0) (b64_char d1) (b64_char d2) x3d
  = ([z2b (d0 * 4 + d1 / 16); z2b (d1 * 16 + d2 / 4)], false).
Proof.
  intros d0 d1 d2 H0 H1 H2. unfold b64_quad.
  destruct (b64_char_ok d0 H0) as (-> & _ & _). destruct (b64_char_ok d1 H1) as (-> & _ & _).
  destruct (b64_char_ok d2 H2) as (-> & _ & ->). change (b2z x3d =? 61) with true. cbv zeta. cbn iota.
  rewrite !Z.shiftr_div_pow2 by lia. rewrite !lor_shift by lia.
  change (2 ^ 2) with 4. change (2 ^ 4) with 16. reflexivity.
Qed.
Lemma quad1 : forall d0 d1, 0 <= d0 < 64 -> 0 <= d1 < 64 ->
  b64_quad (b64_char d0) (b64_char d1) x3d x3d = ([z2b (d0 * 4 + d1 / 16)], false).
Proof.
  intros d0 d1 H0 H1. unfold b64_quad.
  destruct (b64_char_ok d0 H0) as (-> & _ & _). destruct (b64_char_ok d1 H1) as (-> & _ & _).
  change (b2z x3d =? 61) with true. cbv zeta. cbn iota.
  rewrite !Z.shiftr_div_pow2 by lia. rewrite !lor_shift by lia.
  change (2 ^ 2) with 4. change (2 ^ 4) with 16. reflexivity.
Qed.

(** ** The encoders compute the specification. *)
Lemma z2b_eq : forall z b, z mod 256 = b2z b -> z2b z = b.
Proof. intros z b H. apply b2z_inj. rewrite b2z_z2b. exact H. Qed.

Definition step1 (o0 : byte) := b64_char (b2z o0 / 4).
Definition step2 (o0 o1 : Z) := b64_char (o0 mod 4 * 16 + o1 / 16).
Definition step3 (o1 o2 : Z) := b64_char (o1 mod 16 * 4 + o2 / 64).
Definition step4 (o2 : byte) := b64_char (b2z o2 mod 64).

Lemma rfc_cons3 : forall a b c r, rfc4648 (a :: b :: c :: r) =
  [step1 a; step2 (b2z a) (b2z b); step3 (b2z b) (b2z c); step4 c] ++ rfc4648 r.
Proof.
  intros. cbn [rfc4648]. cbv zeta. rewrite !rfc_digit_char. unfold step1, step2, step3, step4.
  pose proof (b2z_range a). pose proof (b2z_range b). pose proof (b2z_range c).
  do 2 f_equal; [f_equal; lia|]. f_equal; [f_equal; lia|]. f_equal; [f_equal; lia|]. f_equal. f_equal. lia.
Qed.
Lemma rfc_2 : forall a b, rfc4648 [a; b] = [step1 a; step2 (b2z a) (b2z b); step3 (b2z b) 0] ++ str "=".
Proof.
  intros. cbn [rfc4648]. cbv zeta. rewrite !rfc_digit_char. unfold step1, step2, step3.
  pose proof (b2z_range a). pose proof (b2z_range b).
  do 2 f_equal; [f_equal; lia|]. f_equal; [f_equal; lia|]. f_equal. f_equal. lia.
Qed.
Lemma rfc_1 : forall a, rfc4648 [a] = [step1 a; step2 (b2z a) 0] ++ str "==".
Proof.
  intros. cbn [rfc4648]. cbv zeta. rewrite !rfc_digit_char. unfold step1, step2.
  pose proof (b2z_range a). do 2 f_equal; [f_equal; lia|]. f_equal. f_equal. lia.
Qed.

(** Induction on groups of three. *)
Lemma group3_ind : forall (P : bytes -> Prop), P [] -> (forall a, P [a]) -> (forall a b, P [a; b]) ->
  (forall a b c r, P r -> P (a :: b :: c :: r)) -> forall s, P s.
Proof.
  intros P H0 H1 H2 H3. fix IH 1. intros [|a [|b [|c r]]]; [exact H0|apply H1|apply H2|apply H3; apply IH].
Qed.

(** Base64Writer_t *)
Lemma b64w_write_app : forall s t st, b64w_write st (s ++ t) =
  (let '(o, st1) := b64w_write st s in let '(o', st2) := b64w_write st1 t in (o ++ o', st2)).
Proof.
  induction s as [|c s IH]; intros t st; cbn [app b64w_write].
  - destruct (b64w_write st t); reflexivity.
  - destruct (b64w_byte st c) as [o st1]. rewrite IH. destruct (b64w_write st1 s) as [o1 st2].
    destruct (b64w_write st2 t) as [o2 st3]. rewrite app_assoc. reflexivity.
Qed.

Lemma b64w_run_concat : forall pieces st, b64w_run st pieces = b64w_run st [concat pieces].
Proof.
  induction pieces as [|p ps IH]; intro st; cbn [b64w_run concat].
  - reflexivity.
  - rewrite b64w_write_app. destruct (b64w_write st p) as [o st1]. rewrite IH. cbn [b64w_run].
    destruct (b64w_write st1 (concat ps)). rewrite app_assoc. reflexivity.
Qed.

Lemma b64w_rfc : forall s, b64w_run (B64_first, 0) [s] = rfc4648 s.
Proof.
  induction s as [|a|a b|a b c r IH] using group3_ind.
  - reflexivity.
  - rewrite rfc_1. cbn [b64w_run b64w_write b64w_byte fst snd app b64w_flush]. unfold step1, step2.
    pose proof (byte_bits a) as (E1 & _ & _ & E2 & _). cbv zeta in *. rewrite E1, E2.
    rewrite Z.shiftl_mul_pow2 by lia. change (2 ^ 4) with 16. change (0 / 16) with 0. rewrite Z.add_0_r. reflexivity.
  - rewrite rfc_2. cbn [b64w_run b64w_write b64w_byte fst snd app b64w_flush]. unfold step1, step2, step3.
    pose proof (byte_bits a) as (E1 & _ & _ & E2 & _). pose proof (byte_bits b) as (_ & _ & _ & _ & E5 & _ & E4 & _).
    cbv zeta in *. rewrite E1, E2, E4, E5. pose proof (b2z_range b).
    rewrite lor_shift by lia. rewrite Z.shiftl_mul_pow2 by lia. change (2 ^ 4) with 16. change (2 ^ 2) with 4.
    change (0 / 64) with 0. rewrite Z.add_0_r. reflexivity.
  - rewrite rfc_cons3, <- IH. cbn [b64w_run b64w_write b64w_byte fst snd app]. unfold step1, step2, step3, step4.
    pose proof (byte_bits a) as (E1 & _ & _ & E2 & _). pose proof (byte_bits b) as (_ & _ & _ & _ & E5 & _ & E4 & _).
    pose proof (byte_bits c) as (_ & _ & _ & _ & _ & E6 & _ & E7).
    cbv zeta in *. rewrite E1, E2, E4, E5, E6, E7. pose proof (b2z_range b). pose proof (b2z_range c).
    rewrite !lor_shift by lia. change (2 ^ 4) with 16. change (2 ^ 2) with 4.
    destruct (b64w_write (B64_first, 0) r) as [o st]. reflexivity.
Qed.

Lemma b64_text_rfc : forall pieces, b64_text pieces = rfc4648 (concat pieces).
Proof. intro. unfold b64_text. rewrite b64w_run_concat. apply b64w_rfc. Qed.

(** ** Decoding *)
Lemma process_blank : forall s q, fst (b64_process q s) = fst (b64_process q (squeeze s)).
Proof.
  induction s as [|c s IH]; intro q; [reflexivity|]. cbn [squeeze filter b64_process].
  change (blank c) with (is_space c). fold (squeeze s). destruct (is_space c) eqn:E; cbn [negb]; [apply IH|].
  cbn [b64_process]. rewrite E.
  assert (G : fst (let '(o', q') := b64_process [] s in (([] : bytes) ++ o', q')) = fst (b64_process [] (squeeze s))).
  { rewrite <- IH. destruct (b64_process [] s); reflexivity. }
  destruct q as [|a0 [|a1 [|a2 [|a3 q]]]]; try apply IH.
  destruct (b64_quad a0 a1 a2 c) as [o []]; [|reflexivity].
  specialize (IH []). destruct (b64_process [] s), (b64_process [] (squeeze s)). cbn in *. congruence.
Qed.

Lemma step_ranges : forall a b : byte, 0 <= b2z a / 4 < 64 /\ 0 <= b2z a mod 4 * 16 + b2z b / 16 < 64
  /\ 0 <= b2z a mod 16 * 4 + b2z b / 64 < 64 /\ 0 <= b2z b mod 64 < 64 /\ 0 <= b2z a mod 4 * 16 + 0 / 16 < 64
  /\ 0 <= b2z a mod 16 * 4 + 0 / 64 < 64.
Proof. intros a b. pose proof (b2z_range a). pose proof (b2z_range b). lia. Qed.

Lemma process_rfc : forall s, b64_process [] (rfc4648 s) = (s, []).
Proof.
  induction s as [|a|a b|a b c r IH] using group3_ind.
  - reflexivity.
  - rewrite rfc_1. unfold step1, step2. pose proof (step_ranges a a) as (R1 & R2 & R3 & R4 & R5 & R6).
    change (str "==") with [x3d; x3d]. cbn [app b64_process].
    destruct (b64_char_ok _ R1) as (_ & -> & _). destruct (b64_char_ok _ R5) as (_ & -> & _).
    change (is_space x3d) with false. cbn iota. rewrite quad1 by auto. f_equal. f_equal.
    apply z2b_eq. pose proof (b2z_range a). lia.
  - rewrite rfc_2. unfold step1, step2, step3. pose proof (step_ranges a b) as (R1 & R2 & _).
    pose proof (step_ranges b b) as (_ & _ & _ & _ & _ & R6).
    change (str "=") with [x3d]. cbn [app b64_process].
    destruct (b64_char_ok _ R1) as (_ & -> & _). destruct (b64_char_ok _ R2) as (_ & -> & _). destruct (b64_char_ok _ R6) as (_ & -> & _).
    change (is_space x3d) with false. cbn iota. rewrite quad2 by auto. pose proof (b2z_range a). pose proof (b2z_range b).
    f_equal. f_equal; [apply z2b_eq; lia|]. f_equal. apply z2b_eq. lia.
  - rewrite rfc_cons3. unfold step1, step2, step3, step4. pose proof (step_ranges a b) as (R1 & R2 & _).
    pose proof (step_ranges b c) as (_ & _ & R3 & R4 & _).
    cbn [app b64_process].
    destruct (b64_char_ok _ R1) as (_ & -> & _). destruct (b64_char_ok _ R2) as (_ & -> & _).
    destruct (b64_char_ok _ R3) as (_ & -> & _). destruct (b64_char_ok _ R4) as (_ & -> & _).
    rewrite quad3 by auto. rewrite IH. pose proof (b2z_range a). pose proof (b2z_range b). pose proof (b2z_range c).
    f_equal. cbn [app]. f_equal; [apply z2b_eq; lia|]. f_equal; [apply z2b_eq; lia|]. f_equal. apply z2b_eq. lia.
Qed.

(** ** Cutting *)
(** The decoder that goes on after a padded quad. *)
Fixpoint b64_ideal (q : bytes) (data : bytes) : bytes :=
  match data with
  | [] => []
  | c :: r =>
      if is_space c then b64_ideal q r
      else match q with
           | [a0; a1; a2] => fst (b64_quad a0 a1 a2 c) ++ b64_ideal [] r
           | _ => b64_ideal (q ++ [c]) r
           end
  end.

Definition dense (s : bytes) : Z := zlen (squeeze s).
Lemma dense_app : forall a b, dense (a ++ b) = dense a + dense b.
Proof. intros. unfold dense, squeeze. rewrite filter_app, zlen_app. reflexivity. Qed.
Lemma dense_nonneg : forall a, 0 <= dense a.
Proof. intros. apply zlen_nonneg. Qed.
Lemma dense_cons : forall c r, dense (c :: r) = (if is_space c then 0 else 1) + dense r.
Proof.
  intros. unfold dense, squeeze. cbn [filter]. change (blank c) with (is_space c). destruct (is_space c); cbn [negb]; auto.
  rewrite zlen_cons. reflexivity.
Qed.

Lemma too_short : forall s q, zlen q + dense s < 4 ->
  b64_ideal q s = [] /\ fst (b64_process q s) = [] /\ zlen (snd (b64_process q s)) = zlen q + dense s.
Proof.
  induction s as [|c s IH]; intros q H; [change (dense []) with 0 in *; repeat split; cbn [b64_process snd]; lia|].
  rewrite dense_cons in *. cbn [b64_ideal b64_process]. destruct (is_space c) eqn:E; [apply IH; lia|].
  pose proof (dense_nonneg s).
  assert (L : zlen (q ++ [c]) = zlen q + 1) by (rewrite zlen_app; reflexivity).
  destruct (IH (q ++ [c])) as (I1 & I2 & I3); [lia|]. rewrite L in I3.
  destruct q as [|a0 [|a1 [|a2 [|a3 q]]]]; try (repeat split; auto; lia).
  exfalso. rewrite !zlen_cons, zlen_nil in H. lia.
Qed.

Lemma pieces_too_short : forall ps q, zlen q + dense (concat ps) < 4 -> b64_process_all q ps = [].
Proof.
  induction ps as [|p ps IH]; intros q H; [reflexivity|]. cbn [concat] in H. rewrite dense_app in H.
  pose proof (dense_nonneg (concat ps)). destruct (too_short p q) as (_ & H1 & H2); [lia|].
  cbn [b64_process_all]. destruct (b64_process q p) as [o q']. cbn in *. subst o. apply IH. lia.
Qed.

(** In state [q] with [t] to come: a padded quad can only be completed with fewer than four characters left. *)
Fixpoint tail_ok (q : bytes) (t : bytes) : Prop :=
  match t with
  | [] => True
  | c :: r => if is_space c then tail_ok q r
              else match q with
                   | [a0; a1; a2] => (snd (b64_quad a0 a1 a2 c) = false -> dense r < 4) /\ tail_ok [] r
                   | _ => tail_ok (q ++ [c]) r
                   end
  end.

Lemma piece_ideal : forall p q rest ps, tail_ok q (p ++ rest) -> rest = concat ps ->
  (forall q', tail_ok q' rest -> b64_process_all q' ps = b64_ideal q' rest) ->
  b64_process_all q (p :: ps) = b64_ideal q (p ++ rest).
Proof.
  induction p as [|c p IH]; intros q rest ps H E K.
  - cbn [b64_process_all b64_process app]. apply K. exact H.
  - cbn [app tail_ok b64_ideal b64_process_all b64_process] in *. destruct (is_space c) eqn:S.
    + specialize (IH q rest ps H E K). cbn [b64_process_all] in IH. exact IH.
    + destruct q as [|a0 [|a1 [|a2 [|a3 q]]]];
        try (specialize (IH _ rest ps H E K); cbn [b64_process_all] in IH; exact IH).
      destruct H as [H1 H2]. destruct (b64_quad a0 a1 a2 c) as [o more]. cbn [fst snd] in *. destruct more.
      * specialize (IH [] rest ps H2 E K). cbn [b64_process_all] in IH. destruct (b64_process [] p) as [o' q'].
        rewrite <- IH. rewrite app_assoc. reflexivity.
      * specialize (H1 eq_refl). destruct (too_short (p ++ rest) []) as (T1 & _).
        { rewrite zlen_nil. lia. }
        rewrite T1, app_nil_r. rewrite dense_app in H1. pose proof (dense_nonneg p).
        rewrite pieces_too_short; [apply app_nil_r|]. rewrite zlen_nil, <- E. lia.
Qed.

Lemma cut_ideal : forall ps q, tail_ok q (concat ps) -> b64_process_all q ps = b64_ideal q (concat ps).
Proof.
  induction ps as [|p ps IH]; intros q H; [reflexivity|]. cbn [concat] in *. eapply piece_ideal; eauto.
Qed.

(** Texts in which at most four characters (white space aside) follow from the first '=' on. *)
Lemma tail_ok_eq : forall u v q, zlen q < 4 -> (forall c, In c q -> b2z c <> 61) ->
  (forall c, In c u -> b2z c <> 61) -> dense v <= 4 -> tail_ok q (u ++ v).
Proof.
  induction u as [|c u IH]; intros v q L Q U D; cbn [app].
  - revert q L Q. induction v as [|c v IHv]; intros q L Q; [exact I|]. rewrite dense_cons in D. cbn [tail_ok].
    destruct (is_space c) eqn:S; [apply IHv; auto|]. clear IHv.
    assert (G : forall t q, zlen q + dense t <= 7 -> dense t < 4 -> tail_ok q t).
    { clear. induction t as [|c t IH]; intros q H D; [exact I|]. rewrite dense_cons in *. cbn [tail_ok].
      destruct (is_space c); [apply IH; lia|]. pose proof (dense_nonneg t).
      destruct q as [|a0 [|a1 [|a2 [|a3 q]]]]; try (apply IH; rewrite ?zlen_app, ?zlen_cons, ?zlen_nil in *; try lia).
      split; [lia|]. apply IH; rewrite ?zlen_nil; lia. }
    pose proof (dense_nonneg v).
    destruct q as [|a0 [|a1 [|a2 [|a3 q]]]]; try (apply G; rewrite ?zlen_app, ?zlen_cons, ?zlen_nil in *; try lia).
    split; [lia|]. apply G; rewrite ?zlen_nil; lia.
  - cbn [tail_ok]. assert (C : b2z c <> 61) by (apply U; left; auto).
    assert (U' : forall c, In c u -> b2z c <> 61) by (intros; apply U; right; auto).
    destruct (is_space c) eqn:S; [apply IH; auto|].
    assert (K : zlen q + 1 < 4 -> tail_ok (q ++ [c]) (u ++ v)).
    { intro K. apply IH; auto; [rewrite zlen_app, zlen_cons, zlen_nil; lia|].
      intros x Hx. apply in_app_or in Hx. destruct Hx as [Hx|[<-|[]]]; auto. }
    destruct q as [|a0 [|a1 [|a2 [|a3 q]]]]; try (apply K; rewrite ?zlen_cons, ?zlen_nil; lia).
    + split; [|apply IH; auto; rewrite ?zlen_nil; try lia; intros x []].
      unfold b64_quad. assert (N : b2z a2 <> 61) by (apply Q; cbn; auto).
      apply Z.eqb_neq in N. apply Z.eqb_neq in C. rewrite N, C. discriminate.
    + exfalso. rewrite !zlen_cons in L. pose proof (zlen_nonneg _ q). lia.
Qed.

(** ** writeEncodeBase64 *)
Lemma sextets : forall a b c, sextet1 a = step1 a /\ sextet2 (b2z a) (b2z b) = step2 (b2z a) (b2z b)
  /\ sextet3 (b2z b) (b2z c) = step3 (b2z b) (b2z c) /\ sextet4 c = step4 c
  /\ sextet2 (b2z a) 0 = step2 (b2z a) 0 /\ sextet3 (b2z a) 0 = step3 (b2z a) 0.
Proof.
  intros a b c. unfold sextet1, sextet2, sextet3, sextet4, step1, step2, step3, step4.
  pose proof (byte_bits a) as (E1 & E2 & E3 & E4 & E5 & E6 & E7 & E8).
  pose proof (byte_bits b) as (F1 & F2 & F3 & F4 & F5 & F6 & F7 & F8).
  pose proof (byte_bits c) as (G1 & G2 & G3 & G4 & G5 & G6 & G7 & G8). cbv zeta in *.
  pose proof (b2z_range b). pose proof (b2z_range c).
  rewrite E1, E4, E5, F2, F5, G3, G6. change (Z.shiftr 0 4) with 0. change (Z.shiftr 0 6) with 0.
  rewrite !lor_shift by lia. repeat split; reflexivity.
Qed.

Lemma squeeze_app : forall a b, squeeze (a ++ b) = squeeze a ++ squeeze b.
Proof. intros. apply filter_app. Qed.
Lemma squeeze_char : forall i r, 0 <= i < 64 -> squeeze (b64_char i :: r) = b64_char i :: squeeze r.
Proof.
  intros i r H. cbn [squeeze filter]. destruct (b64_char_ok i H) as (_ & S & _). change (blank (b64_char i)) with (is_space (b64_char i)).
  rewrite S. reflexivity.
Qed.
Lemma squeeze_quad : forall a b c r, squeeze ([step1 a; step2 (b2z a) (b2z b); step3 (b2z b) (b2z c); step4 c] ++ r)
  = [step1 a; step2 (b2z a) (b2z b); step3 (b2z b) (b2z c); step4 c] ++ squeeze r.
Proof.
  intros. unfold step1, step2, step3, step4. pose proof (step_ranges a b) as (R1 & R2 & _).
  pose proof (step_ranges b c) as (_ & _ & R3 & R4 & _). cbn [app]. rewrite !squeeze_char by auto. reflexivity.
Qed.

Lemma xb64_rfc : forall rn s l, squeeze (let '(o, st) := xb64_loop rn [] l s in o ++ xb64_tail rn st) = rfc4648 s.
Proof.
  intros rn s. induction s as [|a|a b|a b c r IH] using group3_ind; intro l.
  - cbn [xb64_loop xb64_tail fst snd app]. destruct (rn && negb (l =? 0)); reflexivity.
  - rewrite rfc_1. cbn [xb64_loop xb64_tail fst snd app]. pose proof (sextets a a a) as (S1 & S2 & S3 & S4 & S5 & S6).
    rewrite S1, S5. unfold step1, step2. pose proof (step_ranges a a) as (R1 & _ & _ & _ & R5 & _).
    rewrite !squeeze_char by auto. destruct (rn && negb (l =? 0)); reflexivity.
  - rewrite rfc_2. cbn [xb64_loop xb64_tail fst snd app]. pose proof (sextets a b a) as (S1 & S2 & _).
    pose proof (sextets b b b) as (_ & _ & _ & _ & _ & S6).
    rewrite S1, S2, S6. unfold step1, step2, step3. pose proof (step_ranges a b) as (R1 & R2 & _).
    pose proof (step_ranges b b) as (_ & _ & _ & _ & _ & R6).
    rewrite !squeeze_char by auto. destruct (rn && negb (l =? 0)); reflexivity.
  - rewrite rfc_cons3. cbn [xb64_loop app]. pose proof (sextets a b c) as (S1 & S2 & S3 & S4 & _). rewrite S1, S2, S3, S4.
    assert (Q : forall brk l', squeeze brk = [] ->
      squeeze (let '(o, st) := (let '(o, st) := xb64_loop rn [] l' r in
                 (step1 a :: step2 (b2z a) (b2z b) :: step3 (b2z b) (b2z c) :: step4 c :: brk ++ o, st)) in o ++ xb64_tail rn st)
      = step1 a :: step2 (b2z a) (b2z b) :: step3 (b2z b) (b2z c) :: step4 c :: rfc4648 r).
    { intros brk l' B. specialize (IH l'). destruct (xb64_loop rn [] l' r) as [o st]. rewrite <- IH.
      match goal with |- squeeze ?x = _ =>
        change x with ([step1 a; step2 (b2z a) (b2z b); step3 (b2z b) (b2z c); step4 c] ++ ((brk ++ o) ++ xb64_tail rn st)) end.
      rewrite squeeze_quad, <- app_assoc, squeeze_app, B. reflexivity. }
    destruct rn; [destruct (72 <? l + 4)|]; cbv iota beta; apply Q; reflexivity.
Qed.

(** Lines *)
Lemma line_lengths_char : forall c r cur, is_space c = false -> line_lengths cur (c :: r) = line_lengths (cur + 1) r.
Proof.
  intros c r cur S. cbn [line_lengths]. destruct r as [|d r]; auto.
  assert (N : (b2z c =? 13) = false).
  { unfold is_space in S. destruct (b2z c =? 13) eqn:E; auto. apply Z.eqb_eq in E. rewrite E in S. discriminate. }
  rewrite N. reflexivity.
Qed.
Lemma line_lengths_b64 : forall i r cur, 0 <= i < 64 -> line_lengths cur (b64_char i :: r) = line_lengths (cur + 1) r.
Proof. intros. apply line_lengths_char. apply b64_char_ok. auto. Qed.

Lemma xb64_lines : forall s l, 0 <= l <= 72 ->
  Forall (fun n => n <= 76) (line_lengths l (let '(o, st) := xb64_loop true [] l s in o ++ xb64_tail true st)).
Proof.
  intros s. induction s as [|a|a b|a b c r IH] using group3_ind; intros l L.
  - cbn [xb64_loop xb64_tail fst snd app andb]. destruct (negb (l =? 0)); cbn; repeat constructor; lia.
  - cbn [xb64_loop xb64_tail fst snd app andb]. pose proof (sextets a a a) as (S1 & S2 & S3 & S4 & S5 & S6).
    rewrite S1, S5. unfold step1, step2. pose proof (step_ranges a a) as (R1 & _ & _ & _ & R5 & _).
    rewrite !line_lengths_b64 by auto.
    change (str "==") with [x3d; x3d]. cbn [app]. rewrite !line_lengths_char by reflexivity.
    destruct (negb (l =? 0)); cbn; repeat constructor; lia.
  - cbn [xb64_loop xb64_tail fst snd app andb]. pose proof (sextets a b a) as (S1 & S2 & _).
    pose proof (sextets b b b) as (_ & _ & _ & _ & _ & S6).
    rewrite S1, S2, S6. unfold step1, step2, step3. pose proof (step_ranges a b) as (R1 & R2 & _).
    pose proof (step_ranges b b) as (_ & _ & _ & _ & _ & R6).
    rewrite !line_lengths_b64 by auto.
    change (str "=") with [x3d]. cbn [app]. rewrite !line_lengths_char by reflexivity.
    destruct (negb (l =? 0)); cbn; repeat constructor; lia.
  - cbn [xb64_loop app]. pose proof (sextets a b c) as (S1 & S2 & S3 & S4 & _). rewrite S1, S2, S3, S4.
    unfold step1, step2, step3, step4. pose proof (step_ranges a b) as (R1 & R2 & _).
    pose proof (step_ranges b c) as (_ & _ & R3 & R4 & _).
    destruct (72 <? l + 4) eqn:E; cbv iota beta.
    + specialize (IH 0 ltac:(lia)). destruct (xb64_loop true [] 0 r) as [o st]. cbn [app].
      rewrite !line_lengths_b64 by auto. cbn [line_lengths]. change (_ && _) with true. cbv iota.
      constructor; [lia|exact IH].
    + specialize (IH (l + 4) ltac:(lia)). destruct (xb64_loop true [] (l + 4) r) as [o st]. cbn [app].
      rewrite !line_lengths_b64 by auto. replace (l + 1 + 1 + 1 + 1) with (l + 4) by lia. exact IH.
Qed.

Lemma b64_outputs_concat : forall ps q, concat (b64_outputs q ps) = b64_process_all q ps.
Proof.
  induction ps as [|p ps IH]; intro q; [reflexivity|]. cbn [b64_outputs b64_process_all].
  destruct (b64_process q p) as [o q']. rewrite <- IH. destruct o; reflexivity.
Qed.

(** The text of an encoding: digits, then at most two '='. *)
Lemma rfc_shape : forall s, exists u v, rfc4648 s = u ++ v /\ (forall c, In c u -> b2z c <> 61) /\ dense v <= 2.
Proof.
  assert (D : forall i, 0 <= i < 64 -> b2z (b64_char i) <> 61).
  { intros i H. destruct (b64_char_ok i H) as (_ & _ & E). apply Z.eqb_neq. exact E. }
  intro s. induction s as [|a|a b|a b c r IH] using group3_ind.
  - exists [], []. repeat split; [intros c []|]. vm_compute. congruence.
  - rewrite rfc_1. exists [step1 a; step2 (b2z a) 0], (str "=="). repeat split; [|vm_compute; congruence].
    pose proof (step_ranges a a) as (R1 & _ & _ & _ & R5 & _).
    intros c [<-|[<-|[]]]; apply D; auto.
  - rewrite rfc_2. eexists _, (str "="). split; [reflexivity|]. split; [|vm_compute; congruence].
    pose proof (step_ranges a b) as (R1 & R2 & _). pose proof (step_ranges b b) as (_ & _ & _ & _ & _ & R6).
    intros c [<-|[<-|[<-|[]]]]; apply D; auto.
  - rewrite rfc_cons3. destruct IH as (u & v & -> & U & V).
    exists ([step1 a; step2 (b2z a) (b2z b); step3 (b2z b) (b2z c); step4 c] ++ u), v. rewrite <- app_assoc.
    split; auto. split; auto. pose proof (step_ranges a b) as (R1 & R2 & _). pose proof (step_ranges b c) as (_ & _ & R3 & R4 & _).
    intros x H. apply in_app_or in H. destruct H as [H|H]; auto. destruct H as [<-|[<-|[<-|[<-|[]]]]]; apply D; auto.
Qed.
