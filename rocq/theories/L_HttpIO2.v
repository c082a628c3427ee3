(** Lines, header fields, blocks and chunked bodies read from a socket. *)
From Coq Require Import Lia.
From Verif Require Import Base Text M_Base64 M_Iso M_Url M_Http M_HttpIO S_Http L_Base L_HttpIO.

(** ** Lines *)
Lemma skip_none : forall p s, (forall c r, s = c :: r -> p c = false) -> skip p s = s.
Proof. intros p [|c r] H; [reflexivity|]. cbn. rewrite (H c r eq_refl). reflexivity. Qed.
Lemma skip_app : forall p a b, forallb p a = true -> skip p (a ++ b) = skip p b.
Proof. induction a as [|c a IH]; intros b H; [reflexivity|]. cbn in *. apply andb_true_iff in H as [-> H]. auto. Qed.
Lemma skip_all : forall p a, forallb p a = true -> skip p a = [].
Proof. intros. rewrite <- (app_nil_r a), skip_app; auto. Qed.
Lemma forallb_rev : forall (p : byte -> bool) a, forallb p a = true -> forallb p (rev a) = true.
Proof.
  intros p a H. rewrite forallb_forall in *. intros x HX. apply H. apply in_rev. assumption.
Qed.
Lemma strip_end_app : forall p a b, forallb p b = true -> (forall c r, a = r ++ [c] -> p c = false) ->
  strip_end p (a ++ b) = a.
Proof.
  intros p a b HB HA. unfold strip_end. rewrite rev_app_distr, skip_app by (apply forallb_rev; assumption).
  rewrite skip_none, rev_involutive; [reflexivity|].
  intros c r E. apply (HA c (rev r)). rewrite <- (rev_involutive a), E. reflexivity.
Qed.
Lemma strip_end_id : forall p a, (forall c r, a = r ++ [c] -> p c = false) -> strip_end p a = a.
Proof. intros. rewrite <- (app_nil_r a) at 1. apply strip_end_app; auto. Qed.
Lemma strip_end_prefix : forall p a, exists b, a = strip_end p a ++ b /\ forallb p b = true.
Proof.
  intros p a. unfold strip_end.
  assert (H : forall s, exists b, s = b ++ skip p s /\ forallb p b = true).
  { induction s as [|c s IH]; [exists []; auto|]. cbn. destruct (p c) eqn:E; [|exists []; auto].
    destruct IH as (b & EB & HB). exists (c :: b). cbn. rewrite E, HB, <- EB. auto. }
  destruct (H (rev a)) as (b & EB & HB). exists (rev b). split; [|apply forallb_rev; assumption].
  rewrite <- rev_app_distr, <- EB, rev_involutive. reflexivity.
Qed.

Lemma lf_char : is_char 10 x0a = true. Proof. reflexivity. Qed.
Lemma not_lf : forall s, one_line s -> find_char 10 s = None.
Proof.
  intros s H. apply find_char_none_in. intros x HX E. apply H. replace x0a with x; [assumption|].
  apply b2z_inj. rewrite E. reflexivity.
Qed.

Lemma read_line_at : forall check limit opt l rest v f, one_line l -> too_long check limit (blen l + 1) = false ->
  exists v', read_line_opt check limit opt (mkSock (l ++ x0a :: rest) v f) = (mkSock rest v' f, Ok (strip_end is_cr l)).
Proof.
  intros check limit opt l rest v f HL HT. unfold read_line_opt.
  destruct (read_line_loop_spec (S (List.length (l ++ x0a :: rest))) check limit opt true [] (mkSock (l ++ x0a :: rest) v f))
    as (p & v' & E & EA & _); [cbn; lia|].
  cbn [pending fin] in *.
  assert (EF : find_char 10 (l ++ x0a :: rest) = Some (blen l)).
  { rewrite find_char_app_none by (apply not_lf; assumption). cbn [find_char]. rewrite lf_char. cbn [option_map].
    rewrite Z.add_0_r. reflexivity. }
  assert (ER : line_result check limit opt true [] (l ++ x0a :: rest) f = Ok (strip_end is_cr l)).
  { unfold line_result. rewrite EF. replace (blen [] + blen l + 1) with (blen l + 1) by (cbn; lia). rewrite HT. cbn [app].
    rewrite ztake_app' by apply blen_zlen. reflexivity. }
  rewrite ER in E, EA. specialize (EA _ eq_refl). unfold after_line in EA. rewrite EF in EA.
  exists v'. rewrite E, EA. f_equal. f_equal.
  change (l ++ x0a :: rest) with (l ++ [x0a] ++ rest). rewrite app_assoc. apply zdrop_app'.
  rewrite zlen_app, blen_zlen. reflexivity.
Qed.

Lemma read_line_crlf : forall check limit opt l rest v f, one_line l -> (forall r, l <> r ++ [x0d]) ->
  too_long check limit (blen l + 2) = false ->
  exists v', read_line_opt check limit opt (mkSock (l ++ crlf ++ rest) v f) = (mkSock rest v' f, Ok l).
Proof.
  intros check limit opt l rest v f HL HC HT.
  replace (l ++ crlf ++ rest) with ((l ++ [x0d]) ++ x0a :: rest) by (rewrite <- app_assoc; reflexivity).
  destruct (read_line_at check limit opt (l ++ [x0d]) rest v f) as (v' & E).
  - intro H. apply in_app_or in H as [H|[H|[]]]; [contradiction|discriminate].
  - rewrite blen_app. replace (blen l + blen [x0d] + 1) with (blen l + 2) by (cbn; lia). assumption.
  - exists v'. rewrite E. f_equal. f_equal. apply strip_end_app; [reflexivity|].
    intros c r ->. unfold is_cr, is_char. destruct (Z.eqb_spec (b2z c) 13) as [H|H]; [|reflexivity].
    exfalso. apply (HC r). repeat f_equal. apply b2z_inj. assumption.
Qed.

(** ** Hexadecimal sizes *)
Lemma hex_val_digit : forall c d, hex_digit c d <-> hex_val c = Some d.
Proof.
  intros c d. unfold hex_digit, hex_val.
  destruct (Z.leb_spec 48 (b2z c)), (Z.leb_spec (b2z c) 57), (Z.leb_spec 65 (b2z c)), (Z.leb_spec (b2z c) 70),
    (Z.leb_spec 97 (b2z c)), (Z.leb_spec (b2z c) 102); cbn [andb]; split; intro HH;
    try (injection HH as <-); try lia; try (f_equal; lia); try discriminate.
Qed.

Lemma digits_of_app : forall dig base s t acc ds, Forall2 (fun c d => dig c = Some d) s ds ->
  digits_of dig base acc (s ++ t)
  = (let '(n, v) := digits_of dig base (fold_left (fun a d => a * base + d) ds acc) t in (n + blen s, v)).
Proof.
  intros dig base s t acc ds H. revert acc. induction H as [|c d s ds HC _ IH]; intros acc; cbn [digits_of app fold_left].
  - destruct (digits_of dig base acc t) as [n v]. rewrite Z.add_0_r. reflexivity.
  - rewrite HC, IH. destruct (digits_of dig base _ t) as [n v]. f_equal. rewrite blen_cons. lia.
Qed.
Lemma hex_number_digits : forall s n, hex_number s n ->
  s <> [] /\ exists ds, Forall2 (fun c d => hex_val c = Some d) s ds /\ n = fold_left (fun a d => a * 16 + d) ds 0.
Proof.
  induction 1 as [c d H|s n c d H (IH1 & ds & IH2 & IH3) HD].
  - split; [discriminate|]. exists [d]. split; [constructor; [apply hex_val_digit; assumption|constructor]|]. cbn [fold_left]. lia.
  - split; [destruct s; discriminate|]. exists (ds ++ [d]). split.
    + apply Forall2_app; [assumption|]. constructor; [apply hex_val_digit; assumption|constructor].
    + rewrite fold_left_app. cbn [fold_left]. rewrite <- IH3. lia.
Qed.
Lemma hex_val_range : forall c d, hex_val c = Some d -> 48 <= b2z c <= 57 \/ 65 <= b2z c <= 70 \/ 97 <= b2z c <= 102.
Proof. intros c d H. apply hex_val_digit in H. unfold hex_digit in H. lia. Qed.

Lemma read_hex_any : forall s n e, hex_number s n -> (e = [] \/ exists r, e = x3b :: r) ->
  read_hex_long (s ++ e) = if 2 ^ 63 - 1 <? n then None else Some n.
Proof.
  intros s n e HS HE. destruct (hex_number_digits s n HS) as (HNE & ds & HF & EV).
  destruct s as [|c s]; [congruence|]. assert (HC : exists d, hex_val c = Some d) by (inversion HF; eauto).
  destruct HC as (d & HC). pose proof (hex_val_range c d HC) as HR. unfold read_hex_long.
  rewrite skip_none.
  2:{ intros c0 r E. inversion E; subst. unfold is_space. repeat rewrite (proj2 (Z.leb_gt _ _)) by lia.
      destruct (Z.leb_spec 9 (b2z c0)), (Z.leb_spec (b2z c0) 13), (Z.eqb_spec (b2z c0) 32); cbn; try reflexivity; lia. }
  cbn [sign_of app]. replace (is_char 45 c) with false by (symmetry; unfold is_char; apply Z.eqb_neq; lia).
  replace (is_char 43 c) with false by (symmetry; unfold is_char; apply Z.eqb_neq; lia).
  assert (EX : skip_0x (c :: s ++ e) = (c :: s) ++ e).
  { destruct s as [|c1 s]; cbn [app skip_0x].
    - destruct HE as [->|(r & ->)]; [reflexivity|]. cbn. rewrite andb_false_r. reflexivity.
    - assert (HC1 : exists d1, hex_val c1 = Some d1) by (inversion HF as [|? ? ? ? ? HF']; subst; inversion HF'; eauto).
      destruct HC1 as (d1 & HC1). apply hex_val_range in HC1.
      replace (is_char 120 c1) with false by (symmetry; unfold is_char; apply Z.eqb_neq; lia).
      replace (is_char 88 c1) with false by (symmetry; unfold is_char; apply Z.eqb_neq; lia).
      rewrite andb_false_r. reflexivity. }
  rewrite EX. rewrite (digits_of_app _ _ _ _ _ ds HF), <- EV.
  assert (EE : digits_of hex_val 16 n e = (0, n)) by (destruct HE as [->|(r & ->)]; reflexivity).
  rewrite EE. pose proof (blen_pos (c :: s) ltac:(discriminate)).
  replace (0 + blen (c :: s) =? 0) with false by (symmetry; apply Z.eqb_neq; lia).
  reflexivity.
Qed.
Lemma read_hex_size : forall s n e, hex_number s n -> n < 2 ^ 63 -> (e = [] \/ exists r, e = x3b :: r) ->
  read_hex_long (s ++ e) = Some n.
Proof. intros s n e HS HN HE. rewrite (read_hex_any s n e HS HE). replace (2 ^ 63 - 1 <? n) with false by (symmetry; apply Z.ltb_ge; lia). reflexivity. Qed.

Lemma hex_digits_not_lf : forall s ds, Forall2 (fun c d => hex_val c = Some d) s ds -> ~ In x0a s /\ ~ In x0d s.
Proof.
  induction 1 as [|c d s ds HC HF [IH1 IH2]]; [split; intros []|]. split; intros [->|HI]; try contradiction; discriminate.
Qed.
Lemma hex_not_lf : forall s n, hex_number s n -> ~ In x0a s /\ ~ In x0d s.
Proof. intros s n H. destruct (hex_number_digits s n H) as (_ & ds & HF & _). eapply hex_digits_not_lf; eauto. Qed.

(** A size line as it stands on the wire. *)
Lemma read_chunk_size_any : forall size n ext rest v f, hex_number size n -> 0 <= n -> chunk_ext ext ->
  exists v', read_chunk_size (mkSock (size ++ ext ++ crlf ++ rest) v f) = (mkSock rest v' f, if 2 ^ 63 - 1 <? n then err HTTP_VALUE else Ok n).
Proof.
  intros size n ext rest v f HS HP (HE1 & HE2). unfold read_chunk_size.
  destruct (hex_not_lf _ _ HS) as (HL & HCR).
  destruct (read_line_at false (-1) false (size ++ ext ++ [x0d]) rest v f) as (v' & E).
  - intro HI. apply in_app_or in HI as [HI|HI]; [contradiction|]. apply in_app_or in HI as [HI|HI]; [contradiction|].
    destruct HI as [HI|[]]; discriminate.
  - reflexivity.
  - replace (size ++ ext ++ crlf ++ rest) with ((size ++ ext ++ [x0d]) ++ x0a :: rest)
      by (repeat rewrite <- app_assoc; reflexivity).
    rewrite E. cbn [sbind].
    assert (EL : exists e, strip_end is_cr (size ++ ext ++ [x0d]) = size ++ e /\ (e = [] \/ exists r, e = x3b :: r)).
    { destruct HE2 as [->|(r & ->)].
      - exists []. split; [|auto]. rewrite app_nil_r. cbn [app]. apply strip_end_app; [reflexivity|].
        intros c r ->. unfold is_cr, is_char. apply Z.eqb_neq. intro E1. apply HCR. apply in_or_app. right. left.
        apply b2z_inj. assumption.
      - destruct (strip_end_prefix is_cr (x3b :: r ++ [x0d])) as (b & EB & HB).
        exists (strip_end is_cr (x3b :: r ++ [x0d])). split.
        + change ((x3b :: r) ++ [x0d]) with (x3b :: r ++ [x0d]). rewrite EB at 1. rewrite app_assoc.
          apply strip_end_app; [assumption|]. intros c q EQ.
          assert (HQ : forall p a c q, strip_end p a = q ++ [c] -> p c = false).
          { intros p a c0 q0 E0. unfold strip_end in E0. apply (f_equal (@rev byte)) in E0. rewrite rev_involutive, rev_app_distr in E0.
            cbn in E0. remember (rev a) as s eqn:Es. clear Es a. revert q0 E0. induction s as [|x s IH]; intros q0 E0; [discriminate|].
            cbn in E0. destruct (p x) eqn:EX; [eauto|]. congruence. }
          destruct (strip_end is_cr (x3b :: r ++ [x0d])) as [|y ys] eqn:ES.
          * exfalso. cbn in EB. rewrite <- EB in HB. cbn in HB. discriminate.
          * destruct (exists_last (l := y :: ys) ltac:(discriminate)) as (z & zs & EZ). rewrite EZ in EQ.
            rewrite app_assoc in EQ. apply app_inj_tail in EQ as [_ <-].
            apply (HQ is_cr (x3b :: r ++ [x0d]) zs z). rewrite ES. assumption.
        + right. destruct (strip_end is_cr (x3b :: r ++ [x0d])) as [|y ys] eqn:ES.
          * exfalso. cbn in EB. rewrite <- EB in HB. cbn in HB. discriminate.
          * exists ys. cbn in EB. inversion EB. subst. reflexivity. }
    destruct EL as (e & -> & HE). rewrite (read_hex_any size n e HS HE). exists v'. destruct (2 ^ 63 - 1 <? n); [reflexivity|].
    replace (n <? 0) with false by (symmetry; apply Z.ltb_ge; assumption). reflexivity.
Qed.
Lemma read_chunk_size_at : forall size n ext rest v f, hex_number size n -> n < 2 ^ 63 -> 0 <= n -> chunk_ext ext ->
  exists v', read_chunk_size (mkSock (size ++ ext ++ crlf ++ rest) v f) = (mkSock rest v' f, Ok n).
Proof.
  intros size n ext rest v f HS HN HP HE. destruct (read_chunk_size_any size n ext rest v f HS HP HE) as (v' & E).
  exists v'. rewrite E. replace (2 ^ 63 - 1 <? n) with false by (symmetry; apply Z.ltb_ge; lia). reflexivity.
Qed.
