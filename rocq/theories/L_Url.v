(** Lemmas about URL decoding. *)
From Coq Require Import Lia.
From Verif Require Import Base Value M_BinUnmarshal M_TreeBuilder Text M_Base64 M_Iso M_Url S_Value S_Url
  L_Base L_Text L_Iso L_RoundTrip L_TreeBuilder L_Dup S_Wire.
Ltac Zify.zify_post_hook ::= Z.div_mod_to_equations.

(** ** Percent decoding *)
Lemma hexval_unhex : forall c d, hexval c = Some d -> unhex1 c = d /\ 0 <= d < 16.
Proof.
  intros c d H. unfold hexval, unhex1 in *. destruct ((48 <=? b2z c) && (b2z c <=? 57)) eqn:E1; [inversion H; lia|].
  destruct ((97 <=? b2z c) && (b2z c <=? 102)) eqn:E2; [inversion H; lia|].
  destruct ((65 <=? b2z c) && (b2z c <=? 70)) eqn:E3; [inversion H; lia|discriminate].
Qed.

Lemma urldecode_pct : forall s t, pct s t -> urldecode t = Ok s.
Proof.
  intros s t H. induction H; cbn [urldecode].
  - reflexivity.
  - unfold is_char. replace (b2z c =? 37) with false by lia. replace (b2z c =? 43) with false by lia. rewrite IHpct. reflexivity.
  - change (is_char 37 x2b) with false. change (is_char 43 x2b) with true. cbv iota. rewrite IHpct. reflexivity.
  - change (is_char 37 x25) with true. cbv iota. rewrite IHpct. cbn [bind]. f_equal. f_equal.
    unfold unhex. destruct (hexval_unhex _ _ H) as [-> R1]. destruct (hexval_unhex _ _ H0) as [-> R2].
    rewrite Z.shiftl_mul_pow2 by lia. rewrite lor_add_pow2 by lia. change (2 ^ 4) with 16.
    replace (b2z c / 16 * 16 + b2z c mod 16) with (b2z c) by lia. apply z2b_b2z.
Qed.

Lemma urldecode_safe_aux : forall n s, (List.length s <= n)%nat -> last s x00 <> x25 -> urldecode s <> UB.
Proof.
  induction n as [|n IH]; intros s L H.
  - destruct s; [discriminate|cbn in L; lia].
  - destruct s as [|c r]; [discriminate|]. cbn [urldecode]. cbn [List.length] in L.
    assert (N : forall t, urldecode t <> UB -> forall k : bytes -> res bytes, (forall x, k x <> UB) -> bind (urldecode t) k <> UB).
    { intros t Ht k Hk. destruct (urldecode t); cbn; auto; discriminate. }
    destruct (is_char 37 c) eqn:E.
    + destruct r as [|a [|b r']].
      * exfalso. apply H. cbn. apply b2z_inj. unfold is_char in E. apply Z.eqb_eq in E. exact E.
      * discriminate.
      * apply N; [|discriminate]. apply IH; [cbn in L; lia|]. destruct r' as [|x r']; [discriminate|exact H].
    + destruct r as [|a r'].
      * destruct (is_char 43 c); discriminate.
      * destruct (is_char 43 c); (apply N; [|discriminate]); apply IH; try (cbn in *; lia); exact H.
Qed.

(** ** Quotes *)
Lemma unquote_escape : forall s r, unquote (escape s ++ r) = s ++ unquote r.
Proof.
  induction s as [|c s IH]; intro r; [reflexivity|]. cbn [escape flat_map]. fold (escape s).
  destruct ((b2z c =? 92) || (b2z c =? 34)) eqn:E.
  - cbn [app unquote]. change (is_char 92 x5c) with true. cbv iota. unfold is_char. rewrite E. rewrite IH. reflexivity.
  - apply orb_false_iff in E. destruct E as [E _]. cbn [app unquote]. unfold is_char. rewrite E. rewrite IH. reflexivity.
Qed.
Lemma unquote_plain : forall s, Forall (fun c => b2z c <> 92) s -> unquote s = s.
Proof.
  induction s as [|c s IH]; intro F; [reflexivity|]. inversion F; subst. cbn [unquote]. unfold is_char.
  replace (b2z c =? 92) with false by lia. rewrite IH by auto. reflexivity.
Qed.

(** ** Splitting *)
Lemma split_at_app : forall sep a r, (forall c, In c a -> b2z c <> sep) ->
  split_at sep (a ++ z2b sep :: r) = (if is_char sep (z2b sep) then a :: split_at sep r else split_at sep (a ++ z2b sep :: r)).
Proof.
  intros sep a r H. destruct (is_char sep (z2b sep)) eqn:E; auto. induction a as [|c a IH]; cbn [app split_at].
  - rewrite E. reflexivity.
  - unfold is_char at 1. replace (b2z c =? sep) with false by (symmetry; apply Z.eqb_neq, H; left; auto).
    rewrite IH by (intros; apply H; right; auto). reflexivity.
Qed.
Lemma split_at_none : forall sep a, (forall c, In c a -> b2z c <> sep) -> split_at sep a = [a].
Proof.
  intros sep a H. induction a as [|c a IH]; [reflexivity|]. cbn [split_at]. unfold is_char.
  replace (b2z c =? sep) with false by (symmetry; apply Z.eqb_neq, H; left; auto).
  rewrite IH by (intros; apply H; right; auto). reflexivity.
Qed.
Lemma split_join : forall segs, segs <> [] -> Forall (fun s => forall c, In c s -> b2z c <> 38) segs ->
  split_at 38 (join [x26] segs) = segs.
Proof.
  induction segs as [|a [|b segs] IH]; intros N F; [congruence| |].
  - inversion F; subst. cbn [join]. apply split_at_none. auto.
  - inversion F; subst. change (join [x26] (a :: b :: segs)) with (a ++ x26 :: join [x26] (b :: segs)).
    change x26 with (z2b 38). rewrite split_at_app by auto. change (is_char 38 (z2b 38)) with true. cbv iota.
    f_equal. apply IH; auto. discriminate.
Qed.
Lemma break_at_app : forall sep a r, (forall c, In c a -> b2z c <> sep) -> is_char sep (z2b sep) = true ->
  break_at sep (a ++ z2b sep :: r) = (a, Some r).
Proof.
  intros sep a r H E. induction a as [|c a IH]; cbn [app break_at].
  - rewrite E. reflexivity.
  - unfold is_char at 1. replace (b2z c =? sep) with false by (symmetry; apply Z.eqb_neq, H; left; auto).
    rewrite IH by (intros; apply H; right; auto). reflexivity.
Qed.
Lemma break_at_none : forall sep a, (forall c, In c a -> b2z c <> sep) -> break_at sep a = (a, None).
Proof.
  intros sep a H. induction a as [|c a IH]; [reflexivity|]. cbn [break_at]. unfold is_char.
  replace (b2z c =? sep) with false by (symmetry; apply Z.eqb_neq, H; left; auto).
  rewrite IH by (intros; apply H; right; auto). reflexivity.
Qed.

(** ** One value *)
Definition ukind_of (v : uval) : ukind :=
  match v with
  | UString _ => K_string | UBool _ => K_bool | UNull => K_null | UInt _ => K_int
  | UDouble _ _ => K_double | UDate _ _ _ _ _ _ _ _ _ => K_datetime
  end.
Definition uval_plain (v : uval) : bytes :=
  match v with
  | UString s => [x22] ++ s ++ [x22]
  | v => uval_text v
  end.
Definition uenc (v : uval) : ukind * bytes := (ukind_of v, uval_plain v).

Lemma dec_value_undec : forall s a, dec_value a s = fold_left (fun a b => a * 10 + digit_val b) s a.
Proof. induction s as [|c s IH]; intro a; [reflexivity|]. cbn [dec_value fold_left]. rewrite IH. f_equal. unfold digit_val. lia. Qed.

Lemma col2_d2 : forall n, col2 n = d2 n.
Proof. reflexivity. Qed.
Lemma col4_d4 : forall n, 0 <= n <= 9999 -> col4 n = d4 n.
Proof.
  intros n H. unfold col4, col2, d4, digit. cbn [app].
  replace (n / 100 / 10) with (n / 1000) by lia.
  replace (n mod 100 / 10) with (n / 10 mod 10) by lia. replace (n mod 100 mod 10) with (n mod 10) by lia. reflexivity.
Qed.

Lemma is_dec_digit : forall c, is_dec c -> is_digit c = true.
Proof. intros c H. unfold is_dec, is_digit in *. apply andb_true_iff. split; apply Z.leb_le; lia. Qed.

Lemma is_dec_not : forall k c, is_dec c -> k < 48 \/ 57 < k -> is_char k c = false.
Proof. intros k c H K. unfold is_dec, is_char in *. apply Z.eqb_neq. lia. Qed.

Lemma col_plain : forall k n, 0 <= n <= 99 -> k < 48 \/ 57 < k -> Forall (fun c => b2z c <> k) (col2 n).
Proof.
  intros k n H K. rewrite col2_d2. unfold d2. repeat constructor; rewrite digit_spec by lia; lia.
Qed.

Lemma date_plain : forall strtod y mo d h mi s tzh tzm w, uval_ok strtod (UDate y mo d h mi s tzh tzm w) ->
  unquote (uval_text (UDate y mo d h mi s tzh tzm w)) = uval_text (UDate y mo d h mi s tzh tzm w).
Proof.
  intros strtod y mo d h mi s tzh tzm w [Y F]. apply unquote_plain.
  repeat match goal with H : Forall _ (_ :: _) |- _ => inversion H; clear H; subst end.
  cbn [uval_text]. unfold col4.
  repeat (apply Forall_app; split); try (apply col_plain; lia); try (repeat constructor; vm_compute; congruence).
  destruct w; repeat constructor; vm_compute; congruence.
Qed.

Lemma unquote_text : forall strtod v, uval_ok strtod v -> unquote (uval_text v) = uval_plain v.
Proof.
  intros strtod [s|[]| |d|t b|y mo dd h mi s tzh tzm w] OK; try reflexivity.
  - change (uval_text (UString s)) with (x22 :: escape s ++ [x22]). cbn [unquote]. change (is_char 92 x22) with false. cbv iota.
    rewrite unquote_escape. reflexivity.
  - apply unquote_plain. destruct OK as (_ & F & _). eapply Forall_impl; [|exact F]. intros c H. cbn beta in H. unfold is_dec in H. cbn beta. lia.
  - apply unquote_plain. destruct OK as (_ & _ & F & _). eapply Forall_impl; [|exact F]. intros c H; cbn beta in *; tauto.
  - exact (date_plain strtod _ _ _ _ _ _ _ _ _ OK).
Qed.

Lemma last_app1 : forall (s : bytes) x d, last (s ++ [x]) d = x.
Proof. intros. apply last_last. Qed.

Lemma resolve_uval : forall strtod v, uval_ok strtod v -> resolve_type (uval_plain v) = Ok (ukind_of v).
Proof.
  intros strtod [s|[]| |d|t b|y mo dd h mi s tzh tzm w] OK; try reflexivity.
  - cbn [uval_plain app resolve_type ukind_of]. change (is_char 34 x22) with true. cbv iota.
    replace (blen (x22 :: s ++ [x22]) =? 1) with false
      by (rewrite blen_zlen, zlen_cons, zlen_app, zlen_cons, zlen_nil; pose proof (zlen_nonneg _ s); lia).
    change (x22 :: s ++ [x22]) with ((x22 :: s) ++ [x22]). rewrite last_app1. reflexivity.
  - destruct OK as (N & F & _). cbn [uval_plain uval_text ukind_of]. destruct d as [|c d]; [congruence|].
    assert (DC : is_dec c) by (inversion F; auto). cbn [resolve_type].
    assert (T : negb (is_char 84 (nth 10 (c :: d) x00)) = true).
    { apply negb_true_iff. unfold is_char. apply Z.eqb_neq. destruct (nth_in_or_default 10 (c :: d) x00) as [I|E].
      - rewrite Forall_forall in F. specialize (F _ I). unfold is_dec in F. lia.
      - rewrite E. discriminate. }
    assert (P : existsb (is_char 46) (c :: d) = false).
    { apply not_true_is_false. intro X. apply existsb_exists in X. destruct X as (x & I & X).
      rewrite Forall_forall in F. specialize (F _ I). unfold is_dec, is_char in *. lia. }
    rewrite !(is_dec_not _ c DC) by lia. cbn [orb]. rewrite (is_dec_digit c DC). rewrite T, orb_true_r, P. reflexivity.
  - destruct OK as ((c & r & -> & DC) & I & F & _). cbn [uval_plain uval_text ukind_of resolve_type].
    assert (T : negb (is_char 84 (nth 10 (c :: r) x00)) = true).
    { apply negb_true_iff. unfold is_char. apply Z.eqb_neq. destruct (nth_in_or_default 10 (c :: r) x00) as [J|E].
      - rewrite Forall_forall in F. specialize (F _ J). lia.
      - rewrite E. discriminate. }
    assert (P : existsb (is_char 46) (c :: r) = true) by (apply existsb_exists; exists x2e; auto).
    rewrite !(is_dec_not _ c DC) by lia. cbn [orb]. rewrite (is_dec_digit c DC). rewrite T, orb_true_r, P. reflexivity.
  - destruct OK as [Y F]. cbn [uval_plain uval_text ukind_of]. rewrite col4_d4 by lia. unfold d4. cbn [app resolve_type col2].
    assert (DC : is_dec (digit (y / 1000))) by (unfold is_dec; rewrite digit_spec by lia; lia).
    rewrite !(is_dec_not _ _ DC) by lia. cbn [orb].
    rewrite digit_is_digit by lia. reflexivity.
Qed.

Lemma c_str_id : forall s, Forall (fun c => b2z c <> 0) s -> c_str s = s.
Proof.
  intros s F. unfold c_str. rewrite break_at_none; [reflexivity|]. rewrite Forall_forall in F. auto.
Qed.

Lemma parse_date : forall y mo d h mi s tzh tzm (w : bool), 0 <= y <= 9999 -> Forall (fun n => 0 <= n <= 99) [mo; d; h; mi; s; tzh; tzm] ->
  parse_iso (uval_text (UDate y mo d h mi s tzh tzm w))
  = Ok (mkDT y mo d h mi s (-1) (-1) ((tzh * 60 + tzm) * (if w then 60 else - 60))).
Proof.
  intros y mo d h mi s tzh tzm w Y F.
  repeat match goal with H : Forall _ (_ :: _) |- _ => inversion H; clear H; subst end.
  cbn [uval_text]. rewrite col4_d4 by lia. rewrite !col2_d2.
  unfold parse_iso. rewrite skip_d4 by lia. rewrite take_d4 by lia. unfold d4 at 1.
  cbn [app opt_char]. change (is_char 45 x2d) with true. cbv iota. rewrite take_d2 by lia. unfold d2 at 1.
  cbn [app opt_char]. change (is_char 45 x2d) with true. cbv iota. rewrite take_d2 by lia. unfold d2 at 1.
  change (is_char 84 x54) with true. cbn [orb].
  assert (T : parse_time (d2 h ++ x3a :: d2 mi ++ x3a :: d2 s ++ (if w then x2d else x2b) :: d2 tzh ++ d2 tzm)
              = (h, mi, s, (tzh * 60 + tzm) * (if w then 60 else - 60))).
  { unfold parse_time. rewrite take_d2 by lia. unfold d2 at 1. cbn [opt_char]. change (is_char 58 x3a) with true. cbv iota.
    rewrite take_d2 by lia. unfold d2 at 1. cbn [opt_char]. change (is_char 58 x3a) with true. cbv iota.
    rewrite take_d2 by lia. unfold d2 at 1.
    replace (is_char 46 (if w then x2d else x2b)) with false by (destruct w; reflexivity).
    assert (TZ : parse_tz (b2z (if w then x2d else x2b)) (d2 tzh ++ d2 tzm) = Some ((tzh * 60 + tzm) * (if w then 60 else - 60))).
    { unfold parse_tz. destruct w.
      - change (b2z x2d) with 45. cbn [Z.eqb orb Pos.eqb]. rewrite take_d2 by lia. unfold d2 at 1.
        rewrite <- (app_nil_r (d2 tzm)). rewrite opt_d2 by lia. rewrite take_d2 by lia. unfold d2 at 1. cbn [skip].
        rewrite !undec_d2 by lia. reflexivity.
      - change (b2z x2b) with 43. cbn [Z.eqb orb Pos.eqb]. rewrite take_d2 by lia. unfold d2 at 1.
        rewrite <- (app_nil_r (d2 tzm)). rewrite opt_d2 by lia. rewrite take_d2 by lia. unfold d2 at 1. cbn [skip].
        rewrite !undec_d2 by lia. reflexivity. }
    rewrite TZ. rewrite !undec_d2 by lia. reflexivity. }
  change col2 with d2. rewrite T. rewrite !undec_d2, undec_d4 by lia. reflexivity.
Qed.

Lemma build_uval : forall strtod v, uval_ok strtod v -> build_one strtod false (uenc v) = Ok (events (uval_value v)).
Proof.
  intros strtod [s|[]| |d|t b|y mo dd h mi s tzh tzm w] OK; cbn [uenc build_one ukind_of uval_plain uval_text uval_value events]; try reflexivity.
  - do 3 f_equal. cbn [app tl]. rewrite blen_zlen, zlen_cons, zlen_app, zlen_cons, zlen_nil. apply ztake_app'. lia.
  - destruct OK as (N & F & L).
    assert (FZ : Forall (fun c => b2z c <> 0) d) by (eapply Forall_impl; [|exact F]; intros c H; cbn beta in *; unfold is_dec in H; lia).
    rewrite c_str_id by auto.
    assert (AD : all_digits d = true).
    { apply forallb_forall. intros x I. rewrite Forall_forall in F. apply is_dec_digit. auto. }
    rewrite AD. cbn [negb orb]. rewrite dec_value_undec in L. change (fold_left _ d 0) with (undec d) in L.
    replace (2 ^ 63 - 1 <? undec d) with false by lia. rewrite dec_value_undec. reflexivity.
  - destruct OK as (_ & _ & F & E). rewrite c_str_id by (eapply Forall_impl; [|exact F]; intros; cbn beta in *; tauto). rewrite E. reflexivity.
  - destruct OK as [Y F]. change (col4 y ++ _) with (uval_text (UDate y mo dd h mi s tzh tzm w)). rewrite parse_date by auto. reflexivity.
Qed.

(** ** The collected values *)
Fixpoint group (pairs : list (bytes * uval)) (m : list (bytes * list uval)) : list (bytes * list uval) :=
  match pairs with
  | [] => m
  | (k, v) :: r => group r (map_set k (match map_get k m with Some l => l ++ [v] | None => [v] end) m)
  end.
Definition enc_map (m : list (bytes * list uval)) : uvalues := map (fun kv => (fst kv, map uenc (snd kv))) m.

Lemma map_get_map : forall A B (f : A -> B) k m, map_get k (map (fun kv => (fst kv, f (snd kv))) m) = option_map f (map_get k m).
Proof. intros A B f k m. induction m as [|[k0 x] m IH]; [reflexivity|]. cbn [map map_get fst snd]. destruct (bytes_cmp k k0); auto. Qed.
Lemma map_set_map : forall A B (f : A -> B) k x m,
  map_set k (f x) (map (fun kv => (fst kv, f (snd kv))) m) = map (fun kv => (fst kv, f (snd kv))) (map_set k x m).
Proof.
  intros A B f k x m. induction m as [|[k0 y] m IH]; [reflexivity|]. cbn [map map_set fst snd].
  destruct (bytes_cmp k k0); cbn [map fst snd]; auto. rewrite IH. reflexivity.
Qed.

Lemma values_of_group : forall strtod pairs segs m, Forall2 (segment_of strtod) pairs segs ->
  values_of segs (enc_map m) = Ok (enc_map (group pairs m)).
Proof.
  intros strtod pairs segs m F. revert m. induction F as [|[k v] seg pairs segs S F IH]; intro m; [reflexivity|].
  destruct S as (enc & -> & P & OK & K & _ & _). cbn [fst snd] in *. cbn [values_of group].
  change (k ++ [x3d] ++ enc) with (k ++ z2b 61 :: enc).
  rewrite break_at_app by (auto; intros; apply K; auto). rewrite (urldecode_pct _ _ P). cbn [bind].
  rewrite (unquote_text strtod) by auto. rewrite (resolve_uval strtod) by auto. cbn [bind].
  change (ukind_of v, uval_plain v) with (uenc v). rewrite <- IH. f_equal.
  unfold values_add, enc_map. rewrite map_get_map.
  destruct (map_get k m) as [l|]; cbn [option_map].
  - change (map uenc l ++ [uenc v]) with (map uenc l ++ map uenc [v]). rewrite <- map_app. apply map_set_map.
  - change [uenc v] with (map uenc [v]). apply map_set_map.
Qed.

Definition uvalues_named (k : bytes) (pairs : list (bytes * uval)) : list uval :=
  map snd (filter (fun p => bytes_eqb k (fst p)) pairs).

Lemma group_spec : forall pairs m, increasing m -> Forall (fun kv => snd kv <> []) m ->
  increasing (group pairs m) /\ Forall (fun kv => snd kv <> []) (group pairs m)
  /\ forall k, match map_get k (group pairs m) with Some l => l | None => [] end
               = match map_get k m with Some l => l | None => [] end ++ uvalues_named k pairs.
Proof.
  induction pairs as [|[k0 v] pairs IH]; intros m I F; cbn [group].
  - repeat split; auto. intro k. cbn. rewrite app_nil_r. reflexivity.
  - set (l0 := match map_get k0 m with Some l => l ++ [v] | None => [v] end).
    assert (I' : increasing (map_set k0 l0 m)) by (apply map_set_increasing; auto).
    assert (F' : Forall (fun kv => snd kv <> []) (map_set k0 l0 m)).
    { assert (NE : l0 <> []) by (subst l0; destruct (map_get k0 m) as [[|]|]; discriminate).
      clearbody l0. clear - F NE. induction m as [|[k1 y] m IHm]; cbn [map_set].
      - repeat constructor; auto.
      - inversion F as [|? ? H1 H2]; subst. destruct (bytes_cmp k0 k1).
        + constructor; auto.
        + constructor; auto.
        + constructor; auto. }
    destruct (IH _ I' F') as (J1 & J2 & J3). repeat split; auto. intro k. rewrite J3.
    rewrite map_get_set by auto. unfold uvalues_named. cbn [filter fst]. destruct (bytes_eqb k k0) eqn:E; [|reflexivity].
    apply bytes_eqb_eq in E. subst k0. cbn [map snd]. subst l0. destruct (map_get k m) as [l|]; cbn [app]; [rewrite <- app_assoc|]; reflexivity.
Qed.

(** ** Names *)
Lemma ends_brackets_spec : forall k, ends_brackets k = true <-> bracketed k.
Proof.
  intro k. unfold ends_brackets, bracketed, brackets. split.
  - intro H. destruct (rev k) as [|b [|a r]] eqn:E; try discriminate. apply andb_true_iff in H. destruct H as [A B].
    unfold is_char in *. apply Z.eqb_eq in A. apply Z.eqb_eq in B.
    exists (rev r). rewrite <- (rev_involutive k), E. cbn [rev]. rewrite <- app_assoc. cbn [app]. f_equal. f_equal; [|f_equal]; apply b2z_inj; assumption.
  - intros [n ->]. rewrite rev_app_distr. reflexivity.
Qed.
Lemma extract_brackets : forall k, extract_member (k ++ brackets) = k /\ ends_brackets (k ++ brackets) = true.
Proof.
  intro k. assert (E : ends_brackets (k ++ brackets) = true) by (apply ends_brackets_spec; exists k; auto).
  split; auto. unfold extract_member. rewrite E. apply ztake_app'. rewrite blen_zlen, zlen_app. change (zlen brackets) with 2. lia.
Qed.
Lemma extract_cases : forall r, (exists k, r = k ++ brackets /\ extract_member r = k /\ ends_brackets r = true)
  \/ (~ bracketed r /\ extract_member r = r /\ ends_brackets r = false).
Proof.
  intro r. destruct (ends_brackets r) eqn:E.
  - left. destruct (proj1 (ends_brackets_spec r) E) as [k ->]. exists k. split; auto. split; auto. apply extract_brackets.
  - right. split; [rewrite <- ends_brackets_spec; congruence|]. split; auto. unfold extract_member. rewrite E. reflexivity.
Qed.

(** The member a group of values becomes. *)
Definition group_value (name : bytes) (l : list uval) : value :=
  if ends_brackets name then VArray (map uval_value l) else match l with v :: _ => uval_value v | [] => VNull end.
Definition group_member (kv : bytes * list uval) : bytes * value := (extract_member (fst kv), group_value (fst kv) (snd kv)).

Lemma seq_build : forall strtod l, Forall (uval_ok strtod) l ->
  seq_trace (map (fun x => of_res (build_one strtod false x)) (map uenc l)) = (flat_map events (map uval_value l), None).
Proof.
  intros strtod l F. induction F as [|v l OK F IH]; [reflexivity|]. cbn [map seq_trace flat_map]. rewrite build_uval by auto.
  cbn [of_res then_]. rewrite IH. reflexivity.
Qed.

Lemma dump_group : forall strtod m, Forall (fun kv => snd kv <> [] /\ Forall (uval_ok strtod) (snd kv)) m ->
  seq_trace (map (dump_member strtod false) (enc_map m)) = (flat_map member_events (map group_member m), None).
Proof.
  intros strtod m F. induction F as [|[name l] m [N OK] F IH]; [reflexivity|].
  cbn [enc_map map seq_trace flat_map fst snd]. fold (enc_map m). rewrite IH.
  assert (E : dump_member strtod false (name, map uenc l) = (member_events (group_member (name, l)), None)).
  { cbn [dump_member]. unfold group_member, group_value, member_events. cbn [fst snd] in *. destruct (ends_brackets name).
    - rewrite seq_build by auto. cbn [then_ fst snd app events]. rewrite !zlen_map. reflexivity.
    - destruct l as [|v l]; [congruence|]. cbn [map]. inversion OK; subst. rewrite build_uval by auto. reflexivity. }
  rewrite E. reflexivity.
Qed.

Lemma last_value_cons : forall A k (kv : bytes * A) l, last_value k (kv :: l) =
  match last_value k l with Some x => Some x | None => if bytes_eqb k (fst kv) then Some (snd kv) else None end.
Proof.
  intros A k kv l. unfold last_value. cbn [rev]. rewrite find_app. destruct (find _ (rev l)); auto. cbn [find].
  destruct (bytes_eqb k (fst kv)); reflexivity.
Qed.

Lemma map_get_none : forall A k (m : list (bytes * A)), (forall k' x, In (k', x) m -> k' <> k) -> map_get k m = None.
Proof.
  intros A k m H. induction m as [|[k0 x] m IH]; [reflexivity|]. cbn [map_get].
  destruct (bytes_cmp k k0) eqn:E; try (apply IH; intros; eapply H; right; eauto).
  apply bytes_cmp_eq in E. subst. exfalso. eapply H; [left; reflexivity|reflexivity].
Qed.

Lemma cmp_app : forall k x r, bytes_cmp k (k ++ x :: r) = Lt.
Proof. induction k as [|c k IH]; intros; [reflexivity|]. cbn [app bytes_cmp]. rewrite Z.compare_refl. apply IH. Qed.

Lemma map_get_cons : forall A k k0 (x : A) m, map_get k ((k0, x) :: m) = if bytes_eqb k k0 then Some x else map_get k m.
Proof.
  intros. cbn [map_get]. destruct (bytes_eqb k k0) eqn:E.
  - apply bytes_cmp_eqb in E. rewrite E. reflexivity.
  - destruct (bytes_cmp k k0) eqn:E2; auto. apply bytes_cmp_eqb in E2. congruence.
Qed.

Lemma group_lookup : forall g k, increasing g -> Forall (fun kv => snd kv <> []) g ->
  last_value k (map group_member g) =
  match map_get (k ++ brackets) g with
  | Some l => Some (VArray (map uval_value l))
  | None => if ends_brackets k then None
            else match map_get k g with Some (v :: _) => Some (uval_value v) | _ => None end
  end.
Proof.
  induction g as [|[r0 l0] g IH]; intros k I F.
  - cbn. destruct (ends_brackets k); reflexivity.
  - destruct I as [I1 I2]. inversion F as [|? ? N F']; subst. cbn [snd] in N. cbn [map]. rewrite last_value_cons, IH by auto. clear IH.
    unfold group_member at 1 2. cbn [fst snd]. rewrite !map_get_cons.
    destruct (extract_cases r0) as [(k0 & -> & EX & EB)|(NB & EX & EB)].
    + rewrite EX. unfold group_value. rewrite EB.
      destruct (bytes_eqb k k0) eqn:EK.
      * apply bytes_eqb_eq in EK. subst k0. rewrite bytes_eqb_refl.
        assert (G1 : map_get (k ++ brackets) g = None).
        { apply map_get_none. intros k' x H ->. specialize (I1 _ _ H). rewrite bytes_cmp_refl in I1. discriminate. }
        assert (G2 : map_get k g = None).
        { apply map_get_none. intros k' x H ->. specialize (I1 _ _ H).
          rewrite bytes_cmp_antisym in I1. unfold brackets in I1. rewrite cmp_app in I1. discriminate. }
        rewrite G1, G2. destruct (ends_brackets k); reflexivity.
      * assert (NE : bytes_eqb (k ++ brackets) (k0 ++ brackets) = false).
        { apply not_true_is_false. intro X. apply bytes_eqb_eq in X. apply app_inv_tail in X. subst. rewrite bytes_eqb_refl in EK. discriminate. }
        rewrite NE. destruct (map_get (k ++ brackets) g); auto. destruct (ends_brackets k) eqn:EBK; auto.
        assert (NE2 : bytes_eqb k (k0 ++ brackets) = false).
        { apply not_true_is_false. intro X. apply bytes_eqb_eq in X. subst k. congruence. }
        rewrite NE2. destruct (map_get k g) as [[|]|]; reflexivity.
    + rewrite EX. unfold group_value. rewrite EB.
      assert (NE : bytes_eqb (k ++ brackets) r0 = false).
      { apply not_true_is_false. intro X. apply bytes_eqb_eq in X. apply NB. exists k. auto. }
      rewrite NE. destruct (map_get (k ++ brackets) g); auto.
      destruct (bytes_eqb k r0) eqn:EK.
      * apply bytes_eqb_eq in EK. subst r0. rewrite EB. destruct l0 as [|v l0]; [congruence|].
        assert (G2 : map_get k g = None).
        { apply map_get_none. intros k' x H ->. specialize (I1 _ _ H). rewrite bytes_cmp_refl in I1. discriminate. }
        rewrite G2. reflexivity.
      * destruct (ends_brackets k); auto. destruct (map_get k g) as [[|]|]; reflexivity.
Qed.

(** ** The builder *)
Lemma builds_array : forall val l, Forall (builds val) l -> builds val (VArray l).
Proof.
  intros val l FB t f r f' ST FA. cbn [events replay tb_step]. unfold tb_open. rewrite ST.
  destruct (frame_add_any _ _ (body_value (BArr [])) _ _ FA) as [g Eg]. rewrite Eg.
  destruct (builds_items val l (tb_set_stack (mkFrame (tb_member t) (BArr []) :: f :: r) t)
              (tb_member t) [] f r FB eq_refl) as [m1 E].
  rewrite replay_app, E. cbn [replay tb_step]. unfold tb_close. cbn [with_stack tb_stack f_key f_body body_value app].
  cbn [plain] in FA. rewrite FA. exists m1. reflexivity.
Qed.
Lemma builds_uval : forall val v, builds val (uval_value v).
Proof. intros val [s|[]| |d|t b|y mo dd h mi s tzh tzm w]; (eapply builds_scalar; [reflexivity|]; reflexivity). Qed.
