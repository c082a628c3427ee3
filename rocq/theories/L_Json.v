(** Lemmas about JSON output. *)
From Coq Require Import Lia.
From Verif Require Import Base Value Text M_Marshal M_Base64 M_Dump M_Json S_Base64 S_Json L_Base L_Text L_Base64 P_Base64.
Ltac Zify.zify_post_hook ::= Z.div_mod_to_equations.

(** ** Strings *)
Lemma hex2_spec : forall c, js_hex4 x30 x30 (nth 0 (hex2 c) x00) (nth 1 (hex2 c) x00) = Some (b2z c).
Proof. intro c. destruct c; vm_compute; reflexivity. Qed.

Lemma js_string_char : forall c s t rest, js_string s = Some (t, rest) -> js_string (quote_char c ++ s) = Some (c :: t, rest).
Proof.
  intros c s t rest H. unfold quote_char.
  destruct (b2z c =? 34) eqn:E1.
  { apply Z.eqb_eq in E1. change 34 with (b2z x22) in E1. apply b2z_inj in E1. subst. cbn [app js_string].
    change (b2z x5c =? 34) with false. change (b2z x5c =? 92) with true. change (b2z x22 =? 117) with false. cbv iota.
    change (js_escape x22) with (Some x22). rewrite H. reflexivity. }
  destruct (b2z c =? 92) eqn:E2.
  { apply Z.eqb_eq in E2. change 92 with (b2z x5c) in E2. apply b2z_inj in E2. subst. cbn [app js_string].
    change (b2z x5c =? 34) with false. change (b2z x5c =? 92) with true. change (b2z x5c =? 117) with false. cbv iota.
    change (js_escape x5c) with (Some x5c). rewrite H. reflexivity. }
  destruct (b2z c =? 13) eqn:E3.
  { apply Z.eqb_eq in E3. change 13 with (b2z x0d) in E3. apply b2z_inj in E3. subst. cbn [app js_string].
    change (b2z x5c =? 34) with false. change (b2z x5c =? 92) with true. change (b2z x72 =? 117) with false. cbv iota.
    change (js_escape x72) with (Some x0d). rewrite H. reflexivity. }
  destruct (b2z c =? 10) eqn:E4.
  { apply Z.eqb_eq in E4. change 10 with (b2z x0a) in E4. apply b2z_inj in E4. subst. cbn [app js_string].
    change (b2z x5c =? 34) with false. change (b2z x5c =? 92) with true. change (b2z x6e =? 117) with false. cbv iota.
    change (js_escape x6e) with (Some x0a). rewrite H. reflexivity. }
  destruct (b2z c =? 9) eqn:E5.
  { apply Z.eqb_eq in E5. change 9 with (b2z x09) in E5. apply b2z_inj in E5. subst. cbn [app js_string].
    change (b2z x5c =? 34) with false. change (b2z x5c =? 92) with true. change (b2z x74 =? 117) with false. cbv iota.
    change (js_escape x74) with (Some x09). rewrite H. reflexivity. }
  destruct (is_cntrl c) eqn:E6.
  { unfold escape_u. cbn [app js_string hex2].
    change (b2z x5c =? 34) with false. change (b2z x5c =? 92) with true. change (b2z x75 =? 117) with true. cbv iota.
    pose proof (hex2_spec c) as X. cbn [nth hex2] in X. rewrite X.
    unfold is_cntrl in E6. unfold utf8. replace (b2z c <? 128) with true by lia. rewrite H, z2b_b2z. reflexivity. }
  unfold is_cntrl in E6. cbn [app js_string]. rewrite E1, E2. replace (b2z c <? 32) with false by lia. rewrite H. reflexivity.
Qed.

Lemma js_string_quote : forall s rest, js_string (flat_map quote_char s ++ [x22] ++ rest) = Some (s, rest).
Proof.
  induction s as [|c s IH]; intro rest; [reflexivity|]. cbn [flat_map]. rewrite <- app_assoc.
  apply js_string_char. apply IH.
Qed.

Lemma js_string_plain : forall s rest, Forall (fun c => b2z c <> 34 /\ b2z c <> 92 /\ 32 <= b2z c) s ->
  js_string (s ++ [x22] ++ rest) = Some (s, rest).
Proof.
  intros s rest F. induction F as [|c s (A & B & C) F IH]; [reflexivity|]. cbn [app js_string].
  replace (b2z c =? 34) with false by lia. replace (b2z c =? 92) with false by lia. replace (b2z c <? 32) with false by lia.
  cbn [app] in IH. rewrite IH. reflexivity.
Qed.

(** ** Numbers *)
Lemma skip_digits_chars : forall s r, skip_digits s = r -> exists a, s = a ++ r /\ forallb js_digit a = true.
Proof.
  induction s as [|c s IH]; intros r H; cbn [skip_digits] in H.
  - subst. exists []. auto.
  - destruct (js_digit c) eqn:E; [|subst; exists []; auto].
    destruct (IH _ H) as (a & -> & F). exists (c :: a). split; auto. cbn. rewrite E, F. reflexivity.
Qed.
Lemma digits_num : forall a, forallb js_digit a = true -> forallb num_char a = true.
Proof.
  intros a H. apply forallb_forall. intros c I. rewrite forallb_forall in H. unfold num_char. rewrite (H _ I). reflexivity.
Qed.
Lemma some_digits_chars : forall s r, some_digits s = Some r -> exists a, s = a ++ r /\ forallb num_char a = true.
Proof.
  intros [|c s] r H; cbn in H; [discriminate|]. destruct (js_digit c) eqn:E; [|discriminate]. inversion H as [H1].
  destruct (skip_digits_chars _ _ H1) as (a & -> & F). rewrite H1. exists (c :: a). split; auto. cbn. unfold num_char at 1. rewrite E. cbn. apply digits_num. auto.
Qed.

Lemma js_int_chars : forall s r, js_int s = Some r -> exists c a, s = c :: a ++ r /\ js_digit c = true /\ forallb num_char (c :: a) = true.
Proof.
  intros [|c s] r H; cbn in H; [discriminate|]. destruct (b2z c =? 48) eqn:E.
  - inversion H; subst. exists c, []. unfold js_digit, num_char. repeat split; auto; cbn; unfold js_digit, num_char; lia.
  - destruct (js_digit c) eqn:E2; [|discriminate]. inversion H as [H1].
    destruct (skip_digits_chars _ _ H1) as (a & -> & F). rewrite H1. exists c, a. repeat split; auto. cbn. unfold num_char at 1. rewrite E2. cbn. apply digits_num. auto.
Qed.
Lemma js_frac_chars : forall s r, js_frac s = Some r -> exists a, s = a ++ r /\ forallb num_char a = true.
Proof.
  intros [|c s] r H; cbn in H; [inversion H; exists []; auto|]. destruct (b2z c =? 46) eqn:E.
  - destruct (some_digits_chars _ _ H) as (a & -> & F). exists (c :: a). split; auto. cbn. rewrite F. unfold num_char. rewrite E. rewrite !orb_true_r. reflexivity.
  - inversion H; subst. exists []. auto.
Qed.
Lemma js_exp_chars : forall s r, js_exp s = Some r -> exists a, s = a ++ r /\ forallb num_char a = true.
Proof.
  intros [|c s] r H; cbn in H; [inversion H; exists []; auto|]. destruct ((b2z c =? 101) || (b2z c =? 69)) eqn:E.
  - assert (NC : num_char c = true) by (unfold num_char; lia).
    destruct s as [|g s]; [discriminate|]. destruct ((b2z g =? 43) || (b2z g =? 45)) eqn:E2.
    + destruct (some_digits_chars _ _ H) as (a & -> & F). exists (c :: g :: a). split; auto. cbn. rewrite F, NC.
      replace (num_char g) with true; auto. unfold num_char. lia.
    + destruct (some_digits_chars _ _ H) as (a & EQ & F). exists (c :: a). split; [cbn; rewrite <- EQ; auto|]. cbn. rewrite F, NC. reflexivity.
  - inversion H; subst. exists []. auto.
Qed.

Lemma js_number_chars : forall t, js_number t = true ->
  forallb num_char t = true /\ exists c r, t = c :: r /\ (js_digit c = true \/ b2z c = 45).
Proof.
  intros t H. unfold js_number in H.
  set (s1 := match t with c :: r => if b2z c =? 45 then r else t | [] => [] end) in *.
  destruct (js_int s1) as [s2|] eqn:E1; [|discriminate].
  destruct (js_frac s2) as [s3|] eqn:E2; [|discriminate].
  destruct (js_exp s3) as [[|]|] eqn:E3; try discriminate.
  destruct (js_int_chars _ _ E1) as (c & a & EQ & D & F1). destruct (js_frac_chars _ _ E2) as (b & -> & F2).
  destruct (js_exp_chars _ _ E3) as (e & -> & F3).
  assert (F : forallb num_char s1 = true).
  { rewrite EQ. change (c :: a ++ b ++ e ++ []) with ((c :: a) ++ b ++ e ++ []). rewrite !forallb_app, F1, F2, F3. reflexivity. }
  destruct t as [|g t]; [discriminate|]. cbn in s1. destruct (b2z g =? 45) eqn:E.
  - split; [|exists g, t; split; auto; right; lia]. cbn. fold s1. subst s1. rewrite F. unfold num_char. rewrite E. rewrite !orb_true_r. reflexivity.
  - split; auto. exists g, t. split; auto. left. subst s1. inversion EQ; subst. auto.
Qed.

Definition stops (rest : bytes) : Prop := match rest with [] => True | c :: _ => num_char c = false end.
Lemma num_token_app : forall t rest, forallb num_char t = true -> stops rest -> num_token (t ++ rest) = (t, rest).
Proof.
  induction t as [|c t IH]; intros rest F ST.
  - destruct rest as [|c r]; [reflexivity|]. cbn in *. rewrite ST. reflexivity.
  - cbn [forallb] in F. apply andb_true_iff in F. destruct F as [F1 F2]. cbn [app num_token]. rewrite F1, IH by auto. reflexivity.
Qed.

Lemma drop_prefix_first : forall a p c r, a <> c -> drop_prefix (a :: p) (c :: r) = None.
Proof.
  intros a p c r H. cbn. destruct (Byte.eqb a c) eqn:E; auto. apply byte_dec_bl in E. contradiction.
Qed.

Lemma literal_number : forall t rest, js_number t = true -> stops rest -> literal (t ++ rest) = Some (JNum t, rest).
Proof.
  intros t rest H ST. destruct (js_number_chars _ H) as (F & c & r & -> & D).
  assert (N : c <> x6e /\ c <> x74 /\ c <> x66).
  { unfold js_digit in D. repeat split; intros ->; vm_compute in D; destruct D; discriminate. }
  destruct N as (N1 & N2 & N3). unfold literal.
  change ((c :: r) ++ rest) with (c :: (r ++ rest)).
  change (str "null") with (x6e :: str "ull"). rewrite drop_prefix_first by congruence.
  change (str "true") with (x74 :: str "rue"). rewrite drop_prefix_first by congruence.
  change (str "false") with (x66 :: str "alse"). rewrite drop_prefix_first by congruence.
  change (c :: r ++ rest) with ((c :: r) ++ rest). rewrite num_token_app by auto. rewrite H. reflexivity.
Qed.

Lemma skip_ws_id : forall c r, js_ws c = false -> skip_ws (c :: r) = c :: r.
Proof. intros c r H. cbn. rewrite H. reflexivity. Qed.

Lemma value_number : forall n t rest, js_number t = true -> stops rest -> js_value (S n) (t ++ rest) = Some (JNum t, rest).
Proof.
  intros n t rest H ST. pose proof (literal_number t rest H ST) as L. destruct (js_number_chars _ H) as (_ & c & r & -> & D).
  cbn [js_value]. change ((c :: r) ++ rest) with (c :: (r ++ rest)) in *.
  assert (X : js_ws c = false /\ (b2z c =? 34) = false /\ (b2z c =? 91) = false /\ (b2z c =? 123) = false).
  { unfold js_digit in D. unfold js_ws. destruct D; repeat split; lia. }
  destruct X as (X1 & X2 & X3 & X4). rewrite skip_ws_id by auto. rewrite X2, X3, X4. exact L.
Qed.

(** ** Integers *)
Lemma js_nat_undec : forall s a, js_nat a s = fold_left (fun a b => a * 10 + digit_val b) s a.
Proof. induction s as [|c s IH]; intro a; [reflexivity|]. cbn [js_nat fold_left]. rewrite IH. f_equal. unfold digit_val. lia. Qed.
Lemma skip_digits_all : forall s, Forall (fun b => is_digit b = true) s -> skip_digits s = [].
Proof. intros s F. induction F as [|c s H F IH]; [reflexivity|]. cbn [skip_digits]. change (js_digit c) with (is_digit c). rewrite H. exact IH. Qed.

Lemma js_int_dec : forall n, 0 <= n -> js_int (dec n) = Some [] /\ js_nat 0 (dec n) = n /\ (forall c, In c (dec n) -> js_digit c = true)
  /\ exists c r, dec n = c :: r.
Proof.
  intros n H. destruct (dec_spec n H) as (NE & F & U & L). rewrite js_nat_undec. fold (undec (dec n)).
  destruct (dec n) as [|c r] eqn:E; [congruence|].
  assert (FD : forall c0, In c0 (c :: r) -> js_digit c0 = true) by (rewrite Forall_forall in F; exact F).
  repeat split; auto; [|exists c, r; auto]. cbn [js_int]. inversion F as [|? ? F1 F2]; subst.
  destruct (b2z c =? 48) eqn:Z48.
  - destruct r as [|d r]; [reflexivity|]. exfalso. apply (L c (d :: r) eq_refl); [discriminate|]. apply b2z_inj. change (b2z x30) with 48. lia.
  - change (js_digit c) with (is_digit c). rewrite F1, skip_digits_all by auto. reflexivity.
Qed.

Lemma integer_dec : forall z, integer_text (dec_signed z) /\ js_integer (dec_signed z) = z.
Proof.
  intro z. unfold dec_signed. destruct (z <? 0) eqn:E.
  - destruct (js_int_dec (- z)) as (A & B & C & _); [lia|]. split; [split|].
    + unfold js_number. change (b2z x2d =? 45) with true. cbv iota. rewrite A. reflexivity.
    + intros c [<-|I]; auto.
    + cbn [js_integer]. change (b2z x2d =? 45) with true. cbv iota. lia.
  - destruct (js_int_dec z) as (A & B & C & (c & r & EQ)); [lia|].
    assert (N : (b2z c =? 45) = false).
    { assert (D : js_digit c = true) by (apply C; rewrite EQ; left; auto). unfold js_digit in D. lia. }
    split; [split|].
    + unfold js_number. rewrite EQ in *. rewrite N, A. reflexivity.
    + intros c0 I. left. auto.
    + rewrite EQ in *. cbn [js_integer]. rewrite N. exact B.
Qed.

(** ** The text of a value *)
Fixpoint commas (l : list bytes) : bytes :=
  match l with
  | [] => []
  | [x] => x
  | x :: r => x ++ [x2c] ++ commas r
  end.

Section Text.
  Variable fin : Z -> bytes.
  Notation show := (show_double fin).

  Fixpoint jtext (v : value) : bytes :=
    match v with
    | VInt z => dec_signed z
    | VBool b => if b then str "true" else str "false"
    | VNull => str "null"
    | VDouble d => show d
    | VString s | VStringView s => json_quote s
    | VBinary s => [x22] ++ rfc4648 s ++ [x22]
    | VBinaryRef _ cs => [x22] ++ rfc4648 (concat cs) ++ [x22]
    | VDateTime d => dec_signed (dt_unix d)
    | VStruct m => [x7b] ++ commas (map (fun kv => json_quote (fst kv) ++ [x3a] ++ jtext (snd kv)) m) ++ [x7d]
    | VArray l => [x5b] ++ commas (map jtext l) ++ [x5d]
    | VSecret x => jtext x
    end.

  Definition member_text (kv : bytes * value) : bytes := json_quote (fst kv) ++ [x3a] ++ jtext (snd kv).

  Fixpoint feeds (l : list value) : list mcall := match l with [] => [] | x :: r => feed x ++ feeds r end.
  Fixpoint feed_members (l : list (bytes * value)) : list mcall :=
    match l with [] => [] | (k, x) :: r => PMember k :: feed x ++ feed_members r end.
  Lemma feed_array : forall l, feed (VArray l) = PArray (u32 (zlen l)) :: feeds l.
  Proof. reflexivity. Qed.
  Lemma feed_struct : forall m, feed (VStruct m) = PStruct (u32 (zlen m)) :: feed_members m.
  Proof. reflexivity. Qed.

  Lemma json_calls_app : forall a b ctx, json_calls fin ctx (a ++ b) =
    bind (json_calls fin ctx a) (fun x => let '(o, c1) := x in
    bind (json_calls fin c1 b) (fun y => let '(o2, c2) := y in Ok (o ++ o2, c2))).
  Proof.
    induction a as [|c a IH]; intros b ctx; cbn [app json_calls].
    - cbn [bind]. destruct (json_calls fin ctx b) as [[o2 c2]| |]; reflexivity.
    - destruct (json_call fin ctx c) as [[o c1]| |]; cbn [bind]; auto. rewrite IH.
      destruct (json_calls fin c1 a) as [[o1 c1']| |]; cbn [bind]; auto.
      destruct (json_calls fin c1' b) as [[o2 c2]| |]; cbn [bind]; auto. rewrite app_assoc. reflexivity.
  Qed.

  Definition writes (v : value) : Prop :=
    forall ctx, json_calls fin ctx (feed v) = Ok (jtext v ++ fst (jdec ctx), snd (jdec ctx)).

  Lemma writes_items : forall l k ctx, Forall writes l -> l <> [] ->
    json_calls fin ((k, zlen l) :: ctx) (feeds l) = Ok (commas (map jtext l) ++ [k] ++ fst (jdec ctx), snd (jdec ctx)).
  Proof.
    induction l as [|x l IH]; intros k ctx F NE; [congruence|]. inversion F as [|? ? Wx Fl]; subst.
    cbn [feeds]. rewrite json_calls_app, Wx. cbn [bind jdec]. rewrite zlen_cons. pose proof (zlen_nonneg _ l).
    destruct l as [|y l].
    - cbn [feeds json_calls bind map commas]. rewrite zlen_nil. cbn [Z.add Z.eqb Pos.eqb orb].
      destruct (jdec ctx) as [o c]. cbn [fst snd]. rewrite !app_nil_r. reflexivity.
    - assert (L : zlen (y :: l) = 1 + zlen l) by apply zlen_cons. pose proof (zlen_nonneg _ l).
      replace (1 + zlen (y :: l) =? 0) with false by lia. replace (1 + zlen (y :: l) =? 1) with false by lia. cbn [orb fst snd].
      replace (1 + zlen (y :: l) - 1) with (zlen (y :: l)) by lia.
      rewrite IH by (auto; discriminate). cbn [bind]. 
      change (commas (map jtext (x :: y :: l))) with (jtext x ++ [x2c] ++ commas (map jtext (y :: l))).
      rewrite <- !app_assoc. reflexivity.
  Qed.

  Lemma writes_members : forall l k ctx, Forall (fun kv => writes (snd kv)) l -> l <> [] ->
    json_calls fin ((k, zlen l) :: ctx) (feed_members l)
    = Ok (commas (map member_text l) ++ [k] ++ fst (jdec ctx), snd (jdec ctx)).
  Proof.
    induction l as [|[key x] l IH]; intros k ctx F NE; [congruence|]. inversion F as [|? ? Wx Fl]; subst. cbn [snd] in Wx.
    cbn [feed_members json_calls json_call bind]. rewrite json_calls_app, Wx. cbn [bind jdec]. rewrite zlen_cons. pose proof (zlen_nonneg _ l).
    destruct l as [|y l].
    - cbn [feed_members json_calls bind map commas member_text fst snd]. rewrite zlen_nil. cbn [Z.add Z.eqb Pos.eqb orb].
      destruct (jdec ctx) as [o c]. cbn [fst snd bind]. unfold member_text; cbn [fst snd]; change (str ":") with [x3a]. rewrite !app_nil_r, <- !app_assoc. reflexivity.
    - assert (L : zlen (y :: l) = 1 + zlen l) by apply zlen_cons. pose proof (zlen_nonneg _ l).
      replace (1 + zlen (y :: l) =? 0) with false by lia. replace (1 + zlen (y :: l) =? 1) with false by lia. cbn [orb fst snd].
      replace (1 + zlen (y :: l) - 1) with (zlen (y :: l)) by lia.
      rewrite IH by (auto; discriminate). cbn [bind]. 
      change (commas (map member_text ((key, x) :: y :: l))) with ((json_quote key ++ [x3a] ++ jtext x) ++ [x2c] ++ commas (map member_text (y :: l))).
      change (str ":") with [x3a]. rewrite <- !app_assoc. reflexivity.
  Qed.

  Lemma u32_small : forall A (l : list A), zlen l < 2 ^ 32 -> u32 (zlen l) = zlen l.
  Proof. intros A l H. unfold u32, unsigned. apply Z.mod_small. pose proof (zlen_nonneg _ l). lia. Qed.

  Lemma doubles_array : forall P l, doubles P (VArray l) <-> zlen l < 2 ^ 32 /\ Forall (doubles P) l.
  Proof.
    intros P l. cbn [doubles]. split; intros [H D]; split; auto; clear H.
    - induction l as [|x l IH]; constructor; destruct D as [D1 D2]; auto.
    - induction D as [|x l D1 D2 IH]; auto.
  Qed.
  Lemma doubles_struct : forall P (m : list (bytes * value)), doubles P (VStruct m) <-> zlen m < 2 ^ 32 /\ Forall (fun kv => doubles P (snd kv)) m.
  Proof.
    intros P l. cbn [doubles]. split; intros [H D]; split; auto; clear H.
    - induction l as [|[k x] l IH]; constructor; destruct D as [D1 D2]; auto.
    - induction D as [|[k x] l D1 D2 IH]; auto.
  Qed.

  Lemma writes_all : forall P v, doubles P v -> writes v.
  Proof.
    intros P. induction v as [z|b| |d|s|s|s|n cs|d|m IH|l IH|v IH] using value_nested_ind; intros D ctx;
      try (cbn [feed json_calls json_call bind jtext]; unfold jvalue; destruct (jdec ctx) as [o c]; cbn [bind fst snd];
           rewrite ?C27_no_breaks; cbn [concat]; rewrite ?app_nil_r; reflexivity).
    - apply doubles_struct in D. destruct D as [DS DM]. rewrite feed_struct, u32_small by auto. cbn [json_calls json_call].
      destruct m as [|kv m].
      + change (zlen (@nil (bytes * value)) =? 0) with true. cbv iota. unfold jvalue. destruct (jdec ctx) as [o c].
        cbn [bind feed_members json_calls fst snd jtext map commas]. rewrite !app_nil_r. reflexivity.
      + replace (zlen (kv :: m) =? 0) with false by (rewrite zlen_cons; pose proof (zlen_nonneg _ m); lia).
        cbn [bind]. rewrite writes_members.
        * cbn [bind jtext]. change (fun kv0 : bytes * value => json_quote (fst kv0) ++ [x3a] ++ jtext (snd kv0)) with member_text.
          change (str "{") with [x7b]. rewrite <- !app_assoc. reflexivity.
        * clear - IH DM. induction IH as [|kv0 m0 H IH IHm]; inversion DM; subst; constructor; auto.
        * discriminate.
    - apply doubles_array in D. destruct D as [DS DM]. rewrite feed_array, u32_small by auto. cbn [json_calls json_call].
      destruct l as [|x l].
      + change (zlen (@nil value) =? 0) with true. cbv iota. unfold jvalue. destruct (jdec ctx) as [o c].
        cbn [bind feeds json_calls fst snd jtext map commas]. rewrite !app_nil_r. reflexivity.
      + replace (zlen (x :: l) =? 0) with false by (rewrite zlen_cons; pose proof (zlen_nonneg _ l); lia).
        cbn [bind]. rewrite writes_items.
        * cbn [bind jtext]. change (str "[") with [x5b]. rewrite <- !app_assoc. reflexivity.
        * clear - IH DM. induction IH as [|v0 m0 H IH IHm]; inversion DM; subst; constructor; auto.
        * discriminate.
    - cbn [feed jtext]. apply IH. exact D.
  Qed.
End Text.

(** ** Reading *)
Lemma rfc_chars : forall s, Forall (fun c => b2z c <> 34 /\ b2z c <> 92 /\ 32 <= b2z c) (rfc4648 s).
Proof.
  assert (D : forall n, (fun c => b2z c <> 34 /\ b2z c <> 92 /\ 32 <= b2z c) (rfc_digit n)).
  { intro n. cbn beta. unfold rfc_digit. assert (R : (Z.to_nat (n mod 64) < 64)%nat) by lia.
    assert (A : Forall (fun c => b2z c <> 34 /\ b2z c <> 92 /\ 32 <= b2z c) rfc_alphabet)
      by (repeat constructor; vm_compute; congruence).
    rewrite Forall_forall in A. apply A. apply nth_In. exact R. }
  assert (EQ : (fun c => b2z c <> 34 /\ b2z c <> 92 /\ 32 <= b2z c) x3d) by (cbn beta; vm_compute; repeat split; congruence).
  intro s. induction s as [|a|a b|a b c r IH] using group3_ind; cbn [rfc4648]; repeat first [apply Forall_cons; auto | apply Forall_nil | exact IH].
Qed.

Section Read.
  Variable fin : Z -> bytes.
  Notation show := (show_double fin).
  Definition good (d : Z) : Prop := js_number (show d) = true.

  Lemma jtext_head : forall v, doubles good v ->
    exists c r, jtext fin v = c :: r /\ js_ws c = false /\ b2z c <> 93 /\ b2z c <> 125.
  Proof.
    assert (N : forall t, js_number t = true -> exists c r, t = c :: r /\ js_ws c = false /\ b2z c <> 93 /\ b2z c <> 125).
    { intros t H. destruct (js_number_chars _ H) as (_ & c & r & -> & D). exists c, r. split; auto.
      unfold js_digit in D. unfold js_ws. destruct D; repeat split; lia. }
    assert (K : forall c r, js_ws c = false -> b2z c <> 93 -> b2z c <> 125 ->
                exists c0 r0, c :: r = c0 :: r0 /\ js_ws c0 = false /\ b2z c0 <> 93 /\ b2z c0 <> 125).
    { intros c r A B C. exists c, r. auto. }
    induction v as [z|b| |d|s|s|s|n cs|d|m IH|l IH|v IH] using value_nested_ind; intros D; cbn [jtext];
      try (apply K; vm_compute; congruence).
    - apply N. apply integer_dec.
    - destruct b; apply K; vm_compute; congruence.
    - apply N. exact D.
    - apply N. apply integer_dec.
    - apply IH. exact D.
  Qed.

  Definition reads (v : value) : Prop :=
    forall n rest, (List.length (jtext fin v) <= n)%nat -> stops rest ->
      exists j, js_value (S n) (jtext fin v ++ rest) = Some (j, rest) /\ shows show v j.

  Lemma read_string : forall n t s rest, js_string (t ++ rest) = Some (s, rest) -> js_value (S n) ((x22 :: t) ++ rest) = Some (JStr s, rest).
  Proof. intros n t s rest H. cbn [app js_value]. rewrite skip_ws_id by reflexivity. change (b2z x22 =? 34) with true. cbv iota. rewrite H. reflexivity. Qed.

  Lemma read_items : forall l n rest, Forall reads l -> Forall (doubles good) l -> l <> [] ->
    (List.length (commas (map (jtext fin) l)) + 2 <= n)%nat ->
    exists js, js_elements n (commas (map (jtext fin) l) ++ [x5d] ++ rest) = Some (js, rest) /\ Forall2 (shows show) l js.
  Proof.
    induction l as [|x l IH]; intros n rest F D NE L; [congruence|]. inversion F as [|? ? Fx Fl]; subst. inversion D as [|? ? Dx Dl]; subst.
    destruct n as [|[|n]]; [lia|lia|]. destruct l as [|y l].
    - cbn [map commas] in *. destruct (Fx n ([x5d] ++ rest)) as (j & E & SH); [lia|reflexivity|].
      exists [j]. split; [|constructor; auto]. cbn [js_elements]. rewrite E. cbn [app skip_ws].
      change (js_ws x5d) with false. change (b2z x5d =? 93) with true. reflexivity.
    - change (commas (map (jtext fin) (x :: y :: l))) with (jtext fin x ++ [x2c] ++ commas (map (jtext fin) (y :: l))) in *.
      rewrite !app_length in L. cbn [List.length] in L.
      destruct (Fx n ([x2c] ++ commas (map (jtext fin) (y :: l)) ++ [x5d] ++ rest)) as (j & E & SH); [lia|reflexivity|].
      destruct (IH (S n) rest) as (js & E2 & S2); auto; [discriminate|lia|].
      exists (j :: js). split; [|constructor; auto]. rewrite <- !app_assoc. 
      remember (commas (map (jtext fin) (y :: l)) ++ [x5d] ++ rest) as tail.
      cbn [js_elements]. rewrite E. cbn [app skip_ws].
      change (js_ws x2c) with false. change (b2z x2c =? 93) with false. change (b2z x2c =? 44) with true. cbv iota.
      cbn [js_elements] in E2. rewrite E2. reflexivity.
  Qed.

  Lemma read_members : forall l n rest, Forall (fun kv => reads (snd kv)) l -> l <> [] ->
    (List.length (commas (map (member_text fin) l)) + 2 <= n)%nat ->
    exists js, js_members n (commas (map (member_text fin) l) ++ [x7d] ++ rest) = Some (js, rest)
      /\ Forall2 (fun kv kj => fst kv = fst kj /\ shows show (snd kv) (snd kj)) l js.
  Proof.
    induction l as [|[k x] l IH]; intros n rest F NE L; [congruence|]. inversion F as [|? ? Fx Fl]; subst. cbn [snd] in Fx.
    destruct n as [|[|n]]; [lia|lia|]. 
    assert (NAME : forall tail f, js_members (S f) (member_text fin (k, x) ++ tail) =
        match js_value f (jtext fin x ++ tail) with
        | Some (v, r) =>
            match skip_ws r with
            | c :: r' =>
                if b2z c =? 125 then Some ([(k, v)], r')
                else if b2z c =? 44 then
                  match js_members f r' with Some (l, rest) => Some ((k, v) :: l, rest) | None => None end
                else None
            | [] => None
            end
        | None => None
        end).
    { intros tail f. unfold member_text. cbn [fst snd]. unfold json_quote.
      replace ((([x22] ++ flat_map quote_char k ++ [x22]) ++ [x3a] ++ jtext fin x) ++ tail)
        with (x22 :: flat_map quote_char k ++ [x22] ++ (x3a :: jtext fin x ++ tail)) by (rewrite <- !app_assoc; reflexivity).
      cbn [js_members]. rewrite skip_ws_id by reflexivity. change (b2z x22 =? 34) with true. cbv iota.
      rewrite js_string_quote. rewrite skip_ws_id by reflexivity. change (b2z x3a =? 58) with true. cbv iota. reflexivity. }
    destruct l as [|y l].
    - cbn [map commas] in *.
      destruct (Fx n ([x7d] ++ rest)) as (j & E & SH).
      { unfold member_text in L. cbn [fst snd] in L. rewrite !app_length in L. lia. }
      { reflexivity. }
      exists [(k, j)]. split; [|constructor; auto]. rewrite NAME, E. cbn [app skip_ws].
      change (js_ws x7d) with false. change (b2z x7d =? 125) with true. reflexivity.
    - change (commas (map (member_text fin) ((k, x) :: y :: l)))
        with (member_text fin (k, x) ++ [x2c] ++ commas (map (member_text fin) (y :: l))) in *.
      rewrite !app_length in L. cbn [List.length] in L.
      destruct (Fx n ([x2c] ++ commas (map (member_text fin) (y :: l)) ++ [x7d] ++ rest)) as (j & E & SH).
      { unfold member_text in L at 1. cbn [fst snd] in L. rewrite !app_length in L. lia. }
      { reflexivity. }
      destruct (IH (S n) rest) as (js & E2 & S2); auto; [discriminate|lia|].
      exists ((k, j) :: js). split; [|constructor; auto]. rewrite <- !app_assoc. rewrite NAME, E. cbn [app skip_ws].
      change (js_ws x2c) with false. change (b2z x2c =? 125) with false. change (b2z x2c =? 44) with true. cbv iota.
      cbn [app] in E2. rewrite E2. reflexivity.
  Qed.

  Lemma reads_all : forall v, doubles good v -> reads v.
  Proof.
    induction v as [z|b| |d|s|s|s|n cs|d|m IH|l IH|v IH] using value_nested_ind; intros D n0 rest L ST.
    - cbn [jtext] in *. destruct (integer_dec z) as [I1 I2]. exists (JNum (dec_signed z)). split; [|constructor; auto].
      apply value_number; auto. apply I1.
    - exists (JBool b). split; [|constructor]. destruct b; reflexivity.
    - exists JNull. split; [reflexivity|constructor].
    - exists (JNum (show d)). split; [|constructor]. apply value_number; auto.
    - exists (JStr s). split; [|constructor]. cbn [jtext json_quote]. apply (read_string n0 (flat_map quote_char s ++ [x22])). rewrite <- app_assoc. apply js_string_quote.
    - exists (JStr s). split; [|constructor]. cbn [jtext json_quote]. apply (read_string n0 (flat_map quote_char s ++ [x22])). rewrite <- app_assoc. apply js_string_quote.
    - exists (JStr (rfc4648 s)). split; [|constructor]. cbn [jtext]. apply (read_string n0 (rfc4648 s ++ [x22])). rewrite <- app_assoc. apply js_string_plain, rfc_chars.
    - exists (JStr (rfc4648 (concat cs))). split; [|constructor]. cbn [jtext]. apply (read_string n0 (rfc4648 (concat cs) ++ [x22])). rewrite <- app_assoc. apply js_string_plain, rfc_chars.
    - cbn [jtext] in *. destruct (integer_dec (dt_unix d)) as [I1 I2]. exists (JNum (dec_signed (dt_unix d))). split; [|constructor; auto].
      apply value_number; auto. apply I1.
    - apply doubles_struct in D. destruct D as [_ D].
      assert (R : Forall (fun kv => reads (snd kv)) m) by (clear - IH D; induction IH; inversion D; subst; constructor; auto).
      cbn [jtext] in *. change (fun kv0 : bytes * value => json_quote (fst kv0) ++ [x3a] ++ jtext fin (snd kv0)) with (member_text fin) in *.
      destruct m as [|kv m].
      + exists (JObj []). split; [reflexivity|constructor; constructor].
      + rewrite !app_length in L. cbn [List.length] in L.
        destruct (read_members (kv :: m) n0 rest) as (js & E & S2); auto; [discriminate|unfold bytes in *; lia|].
        exists (JObj js). split; [|constructor; auto]. 
        match goal with |- js_value _ ?t = _ => replace t with (x7b :: (commas (map (member_text fin) (kv :: m)) ++ [x7d] ++ rest))
          by (rewrite <- !app_assoc; reflexivity) end.
        assert (H : exists r, commas (map (member_text fin) (kv :: m)) ++ [x7d] ++ rest = x22 :: r).
        { destruct m; cbn [map commas]; unfold member_text, json_quote; cbn [app]; eexists; reflexivity. }
        cbn [js_value]. rewrite skip_ws_id by reflexivity. change (b2z x7b =? 34) with false. change (b2z x7b =? 91) with false. change (b2z x7b =? 123) with true. cbv iota.
        destruct H as (r & H). rewrite E. rewrite H. rewrite skip_ws_id by reflexivity. reflexivity.
    - apply doubles_array in D. destruct D as [_ D].
      assert (R : Forall reads l) by (clear - IH D; induction IH; inversion D; subst; constructor; auto).
      cbn [jtext] in *. destruct l as [|x l].
      + exists (JArr []). split; [reflexivity|constructor; constructor].
      + rewrite !app_length in L. cbn [List.length] in L.
        destruct (read_items (x :: l) n0 rest) as (js & E & S2); auto; [discriminate|unfold bytes in *; lia|].
        exists (JArr js). split; [|constructor; auto].
        match goal with |- js_value _ ?t = _ => replace t with (x5b :: (commas (map (jtext fin) (x :: l)) ++ [x5d] ++ rest))
          by (rewrite <- !app_assoc; reflexivity) end.
        assert (H : exists c r, commas (map (jtext fin) (x :: l)) ++ [x5d] ++ rest = c :: r /\ js_ws c = false /\ b2z c <> 93 /\ b2z c <> 125).
        { inversion D as [|? ? Dx Dl]; subst. destruct (jtext_head x Dx) as (c & r & EQ & W).
          destruct l; cbn [map commas]; rewrite EQ; cbn [app]; eexists; eexists; split; [reflexivity|exact W| reflexivity|exact W]. }
        cbn [js_value]. rewrite skip_ws_id by reflexivity. change (b2z x5b =? 34) with false. change (b2z x5b =? 91) with true. cbv iota.
        destruct H as (c & r & H & W & N1 & N2). rewrite E. rewrite H. rewrite skip_ws_id by auto. replace (b2z c =? 93) with false by lia. reflexivity.
    - destruct (IH D n0 rest L ST) as (j & E & S2). exists j. split; auto. constructor. exact S2.
  Qed.
End Read.
