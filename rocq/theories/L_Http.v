(** Lemmas about header names, header collections and URLs. *)
From Coq Require Import Lia.
From Verif Require Import Base Text M_Base64 M_Iso M_Url M_Http S_Http L_Base L_Text L_HttpIO L_HttpIO2.

(** ** Names *)
Lemma lower_spec : forall c, ascii_lower c = to_lower c.
Proof. reflexivity. Qed.

Lemma byte_case : forall c,
  (is_upper c = true -> is_lower (to_lower c) = true /\ is_alnum (to_lower c) = true) /\
  to_lower (to_upper c) = to_lower c /\ to_lower (to_lower c) = to_lower c /\ to_upper (to_upper c) = to_upper c /\
  to_upper (to_lower c) = to_upper c /\
  is_alnum (to_lower c) = is_alnum c /\ is_alnum (to_upper c) = is_alnum c.
Proof. intro c. destruct c; vm_compute; repeat split; congruence. Qed.

Lemma polish_lower : forall s p, map to_lower (polish p s) = map to_lower s.
Proof.
  induction s as [|c s IH]; intro p; [reflexivity|]. cbn [polish map]. rewrite IH. f_equal.
  destruct (byte_case c) as (_ & H1 & H2 & _). destruct (is_alnum c); [destruct p|]; auto.
Qed.
Lemma polish_of_lower : forall s p, polish p s = polish p (map to_lower s).
Proof.
  induction s as [|c s IH]; intro p; [reflexivity|]. cbn [polish map].
  destruct (byte_case c) as (_ & H1 & H2 & H3 & H4 & H5 & H6). rewrite H5, <- IH. f_equal.
  destruct (is_alnum c) eqn:E; [destruct p; auto|].
  unfold to_lower. replace (is_upper c) with false; [reflexivity|]. unfold is_alnum in E. destruct (is_digit c), (is_upper c); auto; discriminate.
Qed.
Lemma polish_same : forall a b, polish_name a = polish_name b <-> same_name a b.
Proof.
  intros. unfold polish_name, same_name. split; intro H.
  - change ascii_lower with to_lower. rewrite <- (polish_lower a false), <- (polish_lower b false), H. reflexivity.
  - rewrite (polish_of_lower a), (polish_of_lower b). change to_lower with ascii_lower. rewrite H. reflexivity.
Qed.
Lemma polish_idem : forall s, polish_name (polish_name s) = polish_name s.
Proof. intro. apply polish_same. unfold same_name. change ascii_lower with to_lower. unfold polish_name. apply polish_lower. Qed.

Lemma bytes_eqb_spec : forall a b, bytes_eqb a b = true <-> a = b.
Proof. intros. apply bytes_eqb_eq. Qed.

Definition polished (h : header) : Prop := Forall (fun f => polish_name (fst f) = fst f) h.

Lemma name_eqb : forall name n, polish_name n = n -> bytes_eqb (polish_name name) n = true <-> same_name n name.
Proof.
  intros name n HN. rewrite bytes_eqb_spec. rewrite <- HN at 1. rewrite polish_same. unfold same_name. split; congruence.
Qed.
Lemma name_neqb : forall name n, polish_name n = n -> bytes_eqb (polish_name name) n = false <-> ~ same_name n name.
Proof.
  intros name n HN. rewrite <- (name_eqb name n HN). destruct (bytes_eqb (polish_name name) n); split; congruence.
Qed.

Lemma list_values : forall name h, polished h -> field_values name h (header_list name h).
Proof.
  intros name. induction h as [|[n v] h IH]; intro HP; [constructor|]. inversion HP as [|? ? H1 H2]; subst. cbn [fst] in H1.
  unfold header_list. cbn [filter fst]. destruct (bytes_eqb (polish_name name) n) eqn:E; cbn [map snd].
  - constructor; [apply name_eqb; auto|apply IH; auto].
  - constructor; [apply name_neqb; auto|apply IH; auto].
Qed.
Lemma values_det : forall name h a b, field_values name h a -> field_values name h b -> a = b.
Proof.
  intros name h a b HA. revert b. induction HA as [|n v fs vs HS HA IH|n v fs vs HS HA IH]; intros b HB; inversion HB; subst; auto;
    try contradiction. f_equal. auto.
Qed.
Lemma values_list : forall name h a, polished h -> field_values name h a -> a = header_list name h.
Proof. intros. eapply values_det; eauto using list_values. Qed.

Lemma get_list : forall name h i, 0 <= i -> header_get name i h = nth_error (header_list name h) (Z.to_nat i).
Proof.
  intros name h. unfold header_get, header_list. induction h as [|[n v] h IH]; intros i HI; cbn [field_nth filter map fst].
  - destruct (Z.to_nat i); reflexivity.
  - destruct (bytes_eqb (polish_name name) n); cbn [map snd]; [|apply IH; assumption].
    destruct (Z.eqb_spec i 0) as [->|E]; [reflexivity|]. rewrite IH by lia.
    replace (Z.to_nat i) with (S (Z.to_nat (i - 1))) by lia. reflexivity.
Qed.

Lemma polished_add : forall n v h, polished h -> polished (header_add n v h).
Proof. intros. unfold header_add. apply Forall_app. split; [assumption|]. constructor; [apply polish_idem|constructor]. Qed.
Lemma polished_set : forall n v c i h, polished h -> polished (header_set n v c i h).
Proof.
  intros n v c i h HP. unfold header_set. revert i. induction HP as [|[m w] h H1 H2 IH]; intro i; cbn [field_set].
  - destruct c; [|constructor]. constructor; [apply polish_idem|constructor].
  - destruct (bytes_eqb (polish_name n) m); [destruct (i =? 0)|]; constructor; cbn [fst] in *; auto; apply IH.
Qed.
Lemma polished_remove : forall n i h h', polished h -> header_remove n i h = Some h' -> polished h'.
Proof.
  intros n i h h' HP. unfold header_remove. revert i h'. induction HP as [|[m w] h H1 H2 IH]; intros i h' H; cbn [field_remove] in H; [discriminate|].
  destruct (bytes_eqb (polish_name n) m).
  - destruct (i =? 0); [inversion H; subst; assumption|].
    destruct (field_remove (polish_name n) (i - 1) h) as [h0|] eqn:E; inversion H; subst. constructor; [assumption|]. eapply IH; eauto.
  - destruct (field_remove (polish_name n) i h) as [h0|] eqn:E; inversion H; subst. constructor; [assumption|]. eapply IH; eauto.
Qed.
Lemma polished_append_last : forall v h, polished h -> polished (append_last v h).
Proof.
  intros v h HP. induction HP as [|[m w] h H1 H2 IH]; [constructor|]. destruct h as [|f h]; [repeat constructor; assumption|].
  change (append_last v ((m, w) :: f :: h)) with ((m, w) :: append_last v (f :: h)). constructor; assumption.
Qed.

(** Replacing and deleting by position. *)
Fixpoint put_nth {A} (i : nat) (x : A) (l : list A) : option (list A) :=
  match l, i with
  | [], _ => None
  | _ :: r, O => Some (x :: r)
  | y :: r, S k => option_map (cons y) (put_nth k x r)
  end.
Fixpoint del_nth {A} (i : nat) (l : list A) : option (list A) :=
  match l, i with
  | [], _ => None
  | _ :: r, O => Some r
  | y :: r, S k => option_map (cons y) (del_nth k r)
  end.

Lemma list_set_same : forall n m v c i h, 0 <= i -> polished h -> same_name n m ->
  header_list n (header_set m v c i h)
  = match put_nth (Z.to_nat i) v (header_list n h) with
    | Some l => l
    | None => header_list n h ++ (if c then [v] else [])
    end.
Proof.
  intros n m v c i h HI HP HS. apply polish_same in HS. unfold header_list, header_set. rewrite HS. set (p := polish_name m). clear HS n.
  revert i HI. induction HP as [|[k w] h H1 H2 IH]; intros i HI; cbn [field_set filter map fst].
  - destruct c; cbn [filter fst map snd app]; [|destruct (Z.to_nat i); reflexivity].
    replace (bytes_eqb p p) with true by (symmetry; apply bytes_eqb_spec; reflexivity). destruct (Z.to_nat i); reflexivity.
  - destruct (bytes_eqb p k) eqn:E.
    + destruct (Z.eqb_spec i 0) as [->|E0]; cbn [filter fst map snd]; rewrite E; cbn [map snd put_nth]; [reflexivity|].
      replace (Z.to_nat i) with (S (Z.to_nat (i - 1))) by lia. cbn [put_nth]. rewrite IH by lia.
      destruct (put_nth _ v _); reflexivity.
    + cbn [filter fst]. rewrite E. apply IH; assumption.
Qed.
Lemma list_set_other : forall n m v c i h, polished h -> ~ same_name n m -> header_list n (header_set m v c i h) = header_list n h.
Proof.
  intros n m v c i h HP HS. assert (HN : bytes_eqb (polish_name n) (polish_name m) = false).
  { destruct (bytes_eqb (polish_name n) (polish_name m)) eqn:E; [|reflexivity]. apply bytes_eqb_spec in E. apply polish_same in E. contradiction. }
  unfold header_list, header_set. revert i. induction HP as [|[k w] h H1 H2 IH]; intro i; cbn [field_set filter map fst].
  - destruct c; cbn [filter fst]; rewrite ?HN; reflexivity.
  - destruct (bytes_eqb (polish_name m) k) eqn:E.
    + apply bytes_eqb_spec in E. subst k. destruct (i =? 0); cbn [filter fst]; rewrite HN; [reflexivity|apply IH].
    + cbn [filter fst]. destruct (bytes_eqb (polish_name n) k); cbn [map snd]; [f_equal|]; apply IH.
Qed.
Lemma list_remove_same : forall n m i h, 0 <= i -> polished h -> same_name n m ->
  option_map (header_list n) (header_remove m i h) = del_nth (Z.to_nat i) (header_list n h).
Proof.
  intros n m i h HI HP HS. apply polish_same in HS. unfold header_list, header_remove. rewrite HS. set (p := polish_name m). clear HS n.
  revert i HI. induction HP as [|[k w] h H1 H2 IH]; intros i HI; cbn [field_remove filter map fst].
  - destruct (Z.to_nat i); reflexivity.
  - destruct (bytes_eqb p k) eqn:E.
    + destruct (Z.eqb_spec i 0) as [->|E0]; [reflexivity|]. cbn [map snd].
      replace (Z.to_nat i) with (S (Z.to_nat (i - 1))) by lia. cbn [del_nth]. rewrite <- IH by lia.
      destruct (field_remove p (i - 1) h); cbn [option_map filter fst]; [rewrite E|]; reflexivity.
    + rewrite <- IH by lia. destruct (field_remove p i h); cbn [option_map filter fst]; [rewrite E|]; reflexivity.
Qed.
Lemma list_remove_other : forall n m i h h', polished h -> ~ same_name n m -> header_remove m i h = Some h' ->
  header_list n h' = header_list n h.
Proof.
  intros n m i h h' HP HS. assert (HN : bytes_eqb (polish_name n) (polish_name m) = false).
  { destruct (bytes_eqb (polish_name n) (polish_name m)) eqn:E; [|reflexivity]. apply bytes_eqb_spec in E. apply polish_same in E. contradiction. }
  unfold header_list, header_remove. revert i h'. induction HP as [|[k w] h H1 H2 IH]; intros i h' H; cbn [field_remove] in H; [discriminate|].
  destruct (bytes_eqb (polish_name m) k) eqn:E.
  - apply bytes_eqb_spec in E. subst k. cbn [filter fst]. rewrite HN. destruct (i =? 0); [inversion H; subst; reflexivity|].
    destruct (field_remove (polish_name m) (i - 1) h) as [h0|] eqn:E; inversion H; subst. cbn [filter fst]. rewrite HN. eapply IH; eauto.
  - destruct (field_remove (polish_name m) i h) as [h0|] eqn:E0; inversion H; subst. cbn [filter fst].
    destruct (bytes_eqb (polish_name n) k); cbn [map snd]; [f_equal|]; eapply IH; eauto.
Qed.
Lemma list_add : forall n m v h, header_list n (header_add m v h)
  = header_list n h ++ (if bytes_eqb (polish_name n) (polish_name m) then [v] else []).
Proof.
  intros. unfold header_list, header_add. rewrite filter_app, map_app. f_equal. cbn [filter fst].
  destruct (bytes_eqb (polish_name n) (polish_name m)); reflexivity.
Qed.

(** The first value. *)
Lemma get_first : forall name fs v, first_value name fs v -> forall h, no_value name h -> polished h ->
  header_get name 0 (h ++ map (fun f => (polish_name (fst f), snd f)) fs) = Some v.
Proof.
  intros name fs v (a & n & b & -> & HS & HA) h HH HP.
  assert (HG : forall l r, polished l -> no_value name l -> field_nth (polish_name name) 0 (l ++ r) = field_nth (polish_name name) 0 r).
  { intros l r HL HV. induction HL as [|[m w] l H1 H2 IH]; [reflexivity|]. inversion HV; subst. cbn [app field_nth fst] in *.
    replace (bytes_eqb (polish_name name) m) with false by (symmetry; apply name_neqb; auto). auto. }
  unfold header_get. rewrite map_app, HG by auto. rewrite HG.
  - cbn [map field_nth fst snd]. replace (bytes_eqb (polish_name name) (polish_name n)) with true; [reflexivity|].
    symmetry. apply bytes_eqb_spec. symmetry. apply polish_same. assumption.
  - apply Forall_forall. intros f HF. apply in_map_iff in HF as (g & <- & _). apply polish_idem.
  - apply Forall_forall. intros f HF. apply in_map_iff in HF as (g & <- & HG2). rewrite Forall_forall in HA. cbn [fst].
    intro HX. apply (HA g HG2). unfold same_name in *. rewrite <- HX. change ascii_lower with to_lower. unfold polish_name.
    rewrite polish_lower. reflexivity.
Qed.
Lemma get_none : forall name fs, no_value name fs -> forall h, no_value name h -> polished h ->
  header_get name 0 (h ++ map (fun f => (polish_name (fst f), snd f)) fs) = None.
Proof.
  intros name fs HF h HH HP.
  assert (HG : forall l, polished l -> no_value name l -> field_nth (polish_name name) 0 l = None).
  { intros l HL HV. induction HL as [|[m w] l H1 H2 IH]; [reflexivity|]. inversion HV; subst. cbn [field_nth fst] in *.
    replace (bytes_eqb (polish_name name) m) with false by (symmetry; apply name_neqb; auto). auto. }
  unfold header_get. apply HG.
  - apply Forall_app. split; [assumption|]. apply Forall_forall. intros f HX. apply in_map_iff in HX as (g & <- & _). apply polish_idem.
  - apply Forall_app. split; [assumption|]. apply Forall_forall. intros f HX. apply in_map_iff in HX as (g & <- & HG2).
    unfold no_value in HF. rewrite Forall_forall in HF. cbn [fst].
    intro HX. apply (HF g HG2). unfold same_name in *. rewrite <- HX. change ascii_lower with to_lower. unfold polish_name.
    rewrite polish_lower. reflexivity.
Qed.

(** ** Decimal numbers *)
Lemma dec_number_digits : forall s n, dec_number s n ->
  s <> [] /\ exists ds, Forall2 (fun c d => dec_val c = Some d) s ds /\ n = fold_left (fun a d => a * 10 + d) ds 0.
Proof.
  assert (HD : forall c d, b2z c = 48 + d -> 0 <= d <= 9 -> dec_val c = Some d).
  { intros c d H1 H2. unfold dec_val, is_digit, digit_val. replace (48 <=? b2z c) with true by (symmetry; apply Z.leb_le; lia).
    replace (b2z c <=? 57) with true by (symmetry; apply Z.leb_le; lia). cbn [andb]. f_equal. lia. }
  induction 1 as [c d H1 H2|s n c d H (IH1 & ds & IH2 & IH3) H1 H2].
  - split; [discriminate|]. exists [d]. split; [constructor; [auto|constructor]|]. cbn [fold_left]. lia.
  - split; [destruct s; discriminate|]. exists (ds ++ [d]). split.
    + apply Forall2_app; [assumption|]. constructor; [auto|constructor].
    + rewrite fold_left_app. cbn [fold_left]. rewrite <- IH3. lia.
Qed.
Lemma dec_val_range : forall c d, dec_val c = Some d -> 48 <= b2z c <= 57 /\ 0 <= d <= 9.
Proof.
  intros c d. unfold dec_val, is_digit, digit_val. destruct (Z.leb_spec 48 (b2z c)), (Z.leb_spec (b2z c) 57); cbn [andb]; intro H1; inversion H1; lia.
Qed.
Lemma dec_prefix : forall s n, dec_number s n -> sign_of (skip is_space s) = (false, s) /\ digits_of dec_val 10 0 s = (blen s, n) /\ 1 <= blen s /\ 0 <= n.
Proof.
  intros s n HS. destruct (dec_number_digits s n HS) as (HNE & ds & HF & EV).
  assert (HN : 0 <= n).
  { subst n. assert (HX : forall ds' s' a, Forall2 (fun c d => dec_val c = Some d) s' ds' -> 0 <= a -> 0 <= fold_left (fun a d => a * 10 + d) ds' a).
    { intros ds' s' a HX. revert a. induction HX as [|c d s' ds' HC _ IH]; intros a HA; [assumption|]. cbn [fold_left]. apply IH.
      apply dec_val_range in HC. lia. }
    eapply HX; eauto. lia. }
  split; [|split; [|split; [apply blen_pos; assumption|assumption]]].
  - destruct s as [|c s]; [congruence|]. inversion HF as [|? d ? ? HC ?]; subst. apply dec_val_range in HC as [HC _].
    rewrite skip_none.
    2:{ intros c0 r E. inversion E; subst. unfold is_space.
        destruct (Z.leb_spec 9 (b2z c0)), (Z.leb_spec (b2z c0) 13), (Z.eqb_spec (b2z c0) 32); cbn; try reflexivity; lia. }
    cbn [sign_of]. unfold is_char. replace (b2z c =? 45) with false by (symmetry; apply Z.eqb_neq; lia).
    replace (b2z c =? 43) with false by (symmetry; apply Z.eqb_neq; lia). reflexivity.
  - rewrite <- (app_nil_r s) at 1. rewrite (digits_of_app dec_val 10 s [] 0 ds HF). cbn [digits_of]. rewrite <- EV. reflexivity.
Qed.
Lemma read_dec_long_number : forall s n, dec_number s n -> n < 2 ^ 63 -> read_dec_long s = Some n.
Proof.
  intros s n HS HN. destruct (dec_prefix s n HS) as (H1 & H2 & H3 & H4). unfold read_dec_long. rewrite H1, H2.
  replace (blen s =? 0) with false by (symmetry; apply Z.eqb_neq; lia).
  replace (2 ^ 63 - 1 <? n) with false by (symmetry; apply Z.ltb_ge; lia). reflexivity.
Qed.
Lemma read_dec_u16_number : forall s n, dec_number s n -> n <= 65535 -> read_dec_u16 s = n.
Proof.
  intros s n HS HN. destruct (dec_prefix s n HS) as (H1 & H2 & H3 & H4). unfold read_dec_u16. rewrite H1, H2.
  replace (blen s =? 0) with false by (symmetry; apply Z.eqb_neq; lia).
  replace (65535 <? n) with false by (symmetry; apply Z.ltb_ge; lia). reflexivity.
Qed.
Lemma undec_is_number : forall s, s <> [] -> Forall (fun b => is_digit b = true) s -> dec_number s (undec s).
Proof.
  intros s HNE HF.
  induction s as [|c s IH] using rev_ind; [congruence|]. apply Forall_app in HF as [HF HC]. inversion HC as [|? ? HD _]; subst.
  unfold is_digit in HD. apply andb_prop in HD as [HD1 HD2]. apply Z.leb_le in HD1, HD2.
  destruct s as [|c0 s].
  - cbn [app]. unfold undec, digit_val. cbn [fold_left]. constructor; lia.
  - rewrite undec_app. unfold undec at 2. cbn [fold_left]. change (zlen [c]) with 1. change (10 ^ 1) with 10.
    replace (undec (c0 :: s) * 10 + (0 * 10 + digit_val c)) with (10 * undec (c0 :: s) + digit_val c) by lia.
    apply dec_more; [apply IH; [discriminate|assumption]|unfold digit_val; lia|unfold digit_val; lia].
Qed.
Lemma dec_is_number : forall n, 0 <= n -> dec_number (dec n) n.
Proof.
  intros n HN. destruct (dec_spec n HN) as (H1 & H2 & H3 & _). pose proof (undec_is_number _ H1 H2) as H. rewrite H3 in H. exact H.
Qed.
