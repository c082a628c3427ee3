(** C49: validation of strings. *)
From Coq Require Import Lia.
From Verif Require Import Base M_Validate S_Validate L_Base.

Lemma let_through_spec : forall c, let_through c = true <-> xml_char c.
Proof.
  intros c. unfold let_through, xml_char. rewrite negb_true_iff, !andb_false_iff, !negb_false_iff, !Z.eqb_eq, !orb_false_iff, !Z.ltb_ge. lia.
Qed.
Lemma utf8_length : forall c, 1 <= zlen (utf8_char c) <= 4.
Proof. intros c. unfold utf8_char. destruct (c <? 128); [|destruct (c <? 2048); [|destruct (c <? 65536)]]; cbn; lia. Qed.
Lemma take_char : forall c t, exists t', ztake 4 (utf8_char c ++ t) = utf8_char c ++ t'.
Proof.
  intros c t. pose proof (utf8_length c) as L. unfold ztake, zlen in *. rewrite firstn_app.
  rewrite firstn_all2 by lia. eauto.
Qed.
Lemma drop_char : forall c t, zdrop (zlen (utf8_char c)) (utf8_char c ++ t) = t.
Proof. intros c t. unfold zdrop, zlen. rewrite Nat2Z.id. rewrite skipn_app, skipn_all, Nat.sub_diag. reflexivity. Qed.

Lemma validate_step : forall mb fuel c t, utf8_locale mb -> scalar c -> 
  validate_loop mb (S fuel) (utf8_char c ++ t) = (if let_through c then validate_loop mb fuel t else Err TypeError).
Proof.
  intros mb fuel c t U S. cbn [validate_loop].
  destruct (utf8_char c ++ t) as [|x r] eqn:E; [pose proof (utf8_length c) as L; apply app_eq_nil in E; destruct E as (E & _); rewrite E in L; cbn in L; lia|].
  rewrite <- E. destruct (take_char c t) as (t' & ->).
  destruct (Z.eq_dec c 0) as [->|N].
  - change (utf8_char 0 ++ t') with (x00 :: t'). rewrite (mb_nul _ U). reflexivity.
  - rewrite (mb_chars _ U c t' S N). rewrite drop_char. reflexivity.
Qed.

(** A text in UTF-8 is accepted if and only if all its characters are XML characters, and otherwise refused with
    TypeError. *)
Theorem C49_utf8_partial : forall mb cs, utf8_locale mb -> Forall scalar cs ->
  (Forall xml_char cs -> validate mb true (utf8_text cs) = Ok tt) /\ (~ Forall xml_char cs -> validate mb true (utf8_text cs) = Err TypeError).
Proof.
  intros mb cs U S. unfold validate.
  assert (G : forall fuel, (List.length (utf8_text cs) <= fuel)%nat -> 
    (Forall xml_char cs -> validate_loop mb fuel (utf8_text cs) = Ok tt) /\ (~ Forall xml_char cs -> validate_loop mb fuel (utf8_text cs) = Err TypeError)).
  { induction S as [|c cs S1 S2 IH]; intros fuel F.
    - split; [intros _; destruct fuel; reflexivity|intros H; elim H; constructor].
    - cbn [utf8_text flat_map] in *. fold (utf8_text cs) in *. rewrite app_length in F. pose proof (utf8_length c) as L. unfold zlen in L.
      destruct fuel as [|fuel]; [lia|]. rewrite validate_step by assumption. destruct (IH fuel ltac:(lia)) as (I1 & I2).
      destruct (let_through c) eqn:E.
      + apply let_through_spec in E. split; intros H.
        * apply I1. inversion H; assumption.
        * apply I2. intros X. apply H. constructor; assumption.
      + split; intros H; [|reflexivity]. inversion H; subst. assert (let_through c = true) by (apply let_through_spec; assumption). congruence. }
  apply G. lia.
Qed.
Print Assumptions C49_utf8_partial.
(** Without validation everything is accepted. *)
Theorem C49_off : forall mb s, validate mb false s = Ok tt.
Proof. reflexivity. Qed.

(** ** What does not hold *)
(** Every text that is not UTF-8 (after XML characters) leads to undefined behaviour instead of an exception. *)
Theorem C49_refuted : forall mb cs rest, utf8_locale mb -> Forall scalar cs -> Forall xml_char cs -> no_char rest ->
  validate mb true (utf8_text cs ++ rest) = UB.
Proof.
  intros mb cs rest U S X N. unfold validate.
  assert (G : forall fuel, (List.length (utf8_text cs ++ rest) <= fuel)%nat -> validate_loop mb fuel (utf8_text cs ++ rest) = UB).
  { induction S as [|c cs S1 S2 IH]; intros fuel F.
    - change (utf8_text [] ++ rest) with rest. destruct N as (N1 & N2). destruct rest as [|x r] eqn:E; [congruence|]. rewrite <- E in *. 
      destruct fuel as [|fuel]; [rewrite E; reflexivity|]. cbn [validate_loop]. rewrite E at 1.
      assert (T : no_char (ztake 4 rest)).
      { split; [rewrite E; discriminate|]. intros c t SC H. apply (N2 c (t ++ zdrop 4 rest) SC). rewrite app_assoc, <- H. unfold ztake, zdrop. symmetry. apply firstn_skipn. }
      destruct (mb_others _ U _ T) as [-> | -> ]; [|reflexivity|reflexivity]. unfold zlen, ztake. rewrite firstn_length. lia.
    - cbn [utf8_text flat_map] in *. fold (utf8_text cs) in *. rewrite <- app_assoc in *. rewrite app_length in F. pose proof (utf8_length c) as L. unfold zlen in L.
      destruct fuel as [|fuel]; [lia|]. rewrite validate_step by assumption. inversion X; subst.
      assert (E : let_through c = true) by (apply let_through_spec; assumption). rewrite E. apply IH; [assumption|lia]. }
  apply G. lia.
Qed.
Print Assumptions C49_refuted.

(** A decoder that is such a locale exists: try all characters of one to four bytes. *)
Definition tail (z : Z) : bool := (128 <=? z) && (z <? 192).
Definition decode1 (s : bytes) : option (Z * Z) :=
  match s with
  | a :: r =>
      let x := b2z a in
      if x <? 128 then Some (x, 1)
      else match r with
      | b :: r1 =>
          let y := b2z b in
          if (194 <=? x) && (x <? 224) && tail y then Some ((x - 192) * 64 + (y - 128), 2)
          else match r1 with
          | c :: r2 =>
              let z := b2z c in
              let n := (x - 224) * 4096 + (y - 128) * 64 + (z - 128) in
              if (224 <=? x) && (x <? 240) && tail y && tail z && (2048 <=? n) && ((n <? 55296) || (57344 <=? n)) then Some (n, 3)
              else match r2 with
              | d :: _ =>
                  let w := b2z d in
                  let n := (x - 240) * 262144 + (y - 128) * 4096 + (z - 128) * 64 + (w - 128) in
                  if (240 <=? x) && tail y && tail z && tail w && (65536 <=? n) && (n <? 1114112) then Some (n, 4) else None
              | [] => None
              end
          | [] => None
          end
      | [] => None
      end
  | [] => None
  end.
Definition sample_mb (s : bytes) : mbres :=
  match decode1 s with
  | Some (c, n) => if c =? 0 then Mb_nul else Mb_char c n
  | None => Mb_bad
  end.

Lemma decode_encode : forall c t, scalar c -> decode1 (utf8_char c ++ t) = Some (c, zlen (utf8_char c)).
Proof.
  intros c t S. unfold scalar in S. unfold utf8_char.
  assert (T : forall z, tail (128 + z mod 64) = true).
  { intros z. pose proof (Z.mod_pos_bound z 64 ltac:(lia)). unfold tail. apply andb_true_iff. split; [apply Z.leb_le|apply Z.ltb_lt]; lia. }
  assert (M : forall z, 0 <= 128 + z mod 64 < 256) by (intros z; pose proof (Z.mod_pos_bound z 64 ltac:(lia)); lia).
  destruct (Z.ltb_spec c 128); [|destruct (Z.ltb_spec c 2048); [|destruct (Z.ltb_spec c 65536)]].
  - change ([z2b c] ++ t) with (z2b c :: t). cbn [decode1]. rewrite b2z_z2b_small by lia.
    assert (E : (c <? 128) = true) by (apply Z.ltb_lt; lia). rewrite E. reflexivity.
  - pose proof (Z.div_mod c 64 ltac:(lia)). pose proof (Z.mod_pos_bound c 64 ltac:(lia)).
    change ([z2b (192 + c / 64); z2b (128 + c mod 64)] ++ t) with (z2b (192 + c / 64) :: z2b (128 + c mod 64) :: t). cbn [decode1].
    assert (B : 2 <= c / 64 < 32) by lia. rewrite !b2z_z2b_small by (apply M || lia).
    assert (E1 : (192 + c / 64 <? 128) = false) by (apply Z.ltb_ge; lia). rewrite E1.
    assert (E2 : (194 <=? 192 + c / 64) && (192 + c / 64 <? 224) = true) by (apply andb_true_iff; split; [apply Z.leb_le|apply Z.ltb_lt]; lia).
    rewrite E2, T. cbn [andb]. f_equal. f_equal. lia.
  - pose proof (Z.div_mod c 64 ltac:(lia)). pose proof (Z.mod_pos_bound c 64 ltac:(lia)).
    pose proof (Z.div_mod (c / 64) 64 ltac:(lia)). pose proof (Z.mod_pos_bound (c / 64) 64 ltac:(lia)).
    assert (D : c / 4096 = c / 64 / 64) by (rewrite Z.div_div by lia; reflexivity). rewrite D.
    match goal with |- decode1 (?l ++ t) = _ => change (l ++ t) with (z2b (224 + c / 64 / 64) :: z2b (128 + (c / 64) mod 64) :: z2b (128 + c mod 64) :: t) end. cbn [decode1].
    assert (B : 0 <= c / 64 / 64 < 16) by lia. rewrite !b2z_z2b_small by (apply M || lia).
    assert (E1 : (224 + c / 64 / 64 <? 128) = false) by (apply Z.ltb_ge; lia). rewrite E1.
    assert (E2 : (194 <=? 224 + c / 64 / 64) && (224 + c / 64 / 64 <? 224) = false) by (apply andb_false_iff; right; apply Z.ltb_ge; lia).
    rewrite E2. cbn [andb].
    assert (E3 : (224 <=? 224 + c / 64 / 64) && (224 + c / 64 / 64 <? 240) = true) by (apply andb_true_iff; split; [apply Z.leb_le|apply Z.ltb_lt]; lia).
    rewrite E3, !T. cbn [andb].
    replace ((224 + c / 64 / 64 - 224) * 4096 + (128 + (c / 64) mod 64 - 128) * 64 + (128 + c mod 64 - 128)) with c by lia.
    assert (E4 : (2048 <=? c) && ((c <? 55296) || (57344 <=? c)) = true).
    { apply andb_true_iff. split; [apply Z.leb_le; lia|]. apply orb_true_iff. destruct S as [S|S]; [left; apply Z.ltb_lt|right; apply Z.leb_le]; lia. }
    rewrite E4. reflexivity.
  - pose proof (Z.div_mod c 64 ltac:(lia)). pose proof (Z.mod_pos_bound c 64 ltac:(lia)).
    pose proof (Z.div_mod (c / 64) 64 ltac:(lia)). pose proof (Z.mod_pos_bound (c / 64) 64 ltac:(lia)).
    pose proof (Z.div_mod (c / 64 / 64) 64 ltac:(lia)). pose proof (Z.mod_pos_bound (c / 64 / 64) 64 ltac:(lia)).
    assert (D : c / 4096 = c / 64 / 64) by (rewrite Z.div_div by lia; reflexivity).
    assert (D2 : c / 262144 = c / 64 / 64 / 64) by (rewrite !Z.div_div by lia; reflexivity). rewrite D, D2.
    match goal with |- decode1 (?l ++ t) = _ => change (l ++ t) with (z2b (240 + c / 64 / 64 / 64) :: z2b (128 + (c / 64 / 64) mod 64) :: z2b (128 + (c / 64) mod 64) :: z2b (128 + c mod 64) :: t) end. cbn [decode1].
    assert (B : 0 <= c / 64 / 64 / 64 < 5) by lia. rewrite !b2z_z2b_small by (apply M || lia).
    assert (E1 : (240 + c / 64 / 64 / 64 <? 128) = false) by (apply Z.ltb_ge; lia). rewrite E1.
    assert (E2 : (194 <=? 240 + c / 64 / 64 / 64) && (240 + c / 64 / 64 / 64 <? 224) = false) by (apply andb_false_iff; right; apply Z.ltb_ge; lia).
    rewrite E2. cbn [andb].
    assert (E3 : (224 <=? 240 + c / 64 / 64 / 64) && (240 + c / 64 / 64 / 64 <? 240) = false) by (apply andb_false_iff; right; apply Z.ltb_ge; lia).
    rewrite E3. cbn [andb]. rewrite !T.
    assert (E5 : (240 <=? 240 + c / 64 / 64 / 64) = true) by (apply Z.leb_le; lia). rewrite E5. cbn [andb].
    replace ((240 + c / 64 / 64 / 64 - 240) * 262144 + (128 + (c / 64 / 64) mod 64 - 128) * 4096 + (128 + (c / 64) mod 64 - 128) * 64 + (128 + c mod 64 - 128)) with c by lia.
    assert (E4 : (65536 <=? c) && (c <? 1114112) = true) by (apply andb_true_iff; split; [apply Z.leb_le|apply Z.ltb_lt]; lia).
    rewrite E4. reflexivity.
Qed.
Lemma byte_of : forall b z, b2z b = z -> b = z2b z.
Proof. intros b z H. apply b2z_inj. rewrite b2z_z2b. pose proof (b2z_range b). subst z. symmetry. apply Z.mod_small. lia. Qed.
Lemma encode_decode : forall s c n, decode1 s = Some (c, n) -> scalar c /\ exists t, s = utf8_char c ++ t.
Proof.
  intros s c n H. unfold scalar, utf8_char.
  destruct s as [|a r]; [discriminate|]. cbn [decode1] in H. pose proof (b2z_range a).
  destruct (Z.ltb_spec (b2z a) 128).
  { injection H as <- <-. split; [lia|]. assert (E : (b2z a <? 128) = true) by (apply Z.ltb_lt; lia). rewrite E. exists r. rewrite <- (byte_of a (b2z a) eq_refl). reflexivity. }
  destruct r as [|b r]; [discriminate|]. pose proof (b2z_range b).
  destruct ((194 <=? b2z a) && (b2z a <? 224) && tail (b2z b)) eqn:E1.
  { injection H as <- <-. unfold tail in E1. rewrite !andb_true_iff, !Z.leb_le, !Z.ltb_lt in E1.
    split; [lia|]. set (c := (b2z a - 192) * 64 + (b2z b - 128)).
    assert (F1 : (c <? 128) = false) by (apply Z.ltb_ge; unfold c; lia). assert (F2 : (c <? 2048) = true) by (apply Z.ltb_lt; unfold c; lia). rewrite F1, F2.
    exists r. cbn [app]. f_equal; [apply byte_of|f_equal; apply byte_of]; unfold c; lia. }
  destruct r as [|d r]; [discriminate|]. pose proof (b2z_range d).
  set (m3 := (b2z a - 224) * 4096 + (b2z b - 128) * 64 + (b2z d - 128)) in H.
  destruct ((224 <=? b2z a) && (b2z a <? 240) && tail (b2z b) && tail (b2z d) && (2048 <=? m3) && ((m3 <? 55296) || (57344 <=? m3))) eqn:E2.
  { injection H as <- <-. unfold tail in E2. rewrite !andb_true_iff, orb_true_iff, !Z.leb_le, !Z.ltb_lt in E2. destruct E2 as (E2 & E3).
    assert (M : m3 < 65536) by (unfold m3; lia).
    split; [lia|]. assert (F1 : (m3 <? 128) = false) by (apply Z.ltb_ge; lia). assert (F2 : (m3 <? 2048) = false) by (apply Z.ltb_ge; lia). assert (F3 : (m3 <? 65536) = true) by (apply Z.ltb_lt; lia). rewrite F1, F2, F3.
    exists r. clear E3. assert (D : m3 / 64 = (b2z a - 224) * 64 + (b2z b - 128)) by (unfold m3; lia).
    cbn [app]. f_equal; [apply byte_of|f_equal; [apply byte_of|f_equal; apply byte_of]]; rewrite ?D; unfold m3; lia. }
  destruct r as [|e r]; [discriminate|]. pose proof (b2z_range e).
  set (m4 := (b2z a - 240) * 262144 + (b2z b - 128) * 4096 + (b2z d - 128) * 64 + (b2z e - 128)) in H.
  destruct ((240 <=? b2z a) && tail (b2z b) && tail (b2z d) && tail (b2z e) && (65536 <=? m4) && (m4 <? 1114112)) eqn:E3; [|discriminate].
  injection H as <- <-. unfold tail in E3. rewrite !andb_true_iff, !Z.leb_le, !Z.ltb_lt in E3.
  split; [lia|]. assert (F1 : (m4 <? 128) = false) by (apply Z.ltb_ge; lia). assert (F2 : (m4 <? 2048) = false) by (apply Z.ltb_ge; lia). assert (F3 : (m4 <? 65536) = false) by (apply Z.ltb_ge; lia). rewrite F1, F2, F3.
  exists r. assert (D : m4 / 64 = (b2z a - 240) * 4096 + (b2z b - 128) * 64 + (b2z d - 128)) by (unfold m4; lia).
  assert (D2 : m4 / 4096 = (b2z a - 240) * 64 + (b2z b - 128)) by (unfold m4; lia).
  cbn [app]. f_equal; [apply byte_of|f_equal; [apply byte_of|f_equal; [apply byte_of|f_equal; apply byte_of]]]; rewrite ?D2, ?D; unfold m4; lia.
Qed.
Lemma sample_locale : utf8_locale sample_mb.
Proof.
  constructor.
  - intros c t S N. unfold sample_mb. rewrite decode_encode by assumption. apply Z.eqb_neq in N. rewrite N. reflexivity.
  - reflexivity.
  - intros s (N & X) _. unfold sample_mb. destruct (decode1 s) as [[c n]|] eqn:E; [|left; reflexivity].
    apply encode_decode in E. destruct E as (S & t & E). elim (X c t S E).
Qed.
Example C49_sample : utf8_locale sample_mb /\ validate sample_mb true (str "abc" ++ utf8_char 253 ++ utf8_char 8364 ++ utf8_char 128512) = Ok tt /\
  validate sample_mb true [x61; x01] = Err TypeError /\ validate sample_mb true (str "abc" ++ [xff; x61]) = UB.
Proof. split; [apply sample_locale|]. split; [|split]; vm_compute; reflexivity. Qed.
Example C49_refuted_sample : no_char [xff; x61] /\ validate sample_mb true [x61; xff; x61] = UB.
Proof.
  split; [|vm_compute; reflexivity]. split; [discriminate|]. intros c t S E. pose proof (decode_encode c t S) as D. rewrite <- E in D.
  assert (X : decode1 [xff; x61] = None) by (vm_compute; reflexivity). rewrite X in D. discriminate D.
Qed.
