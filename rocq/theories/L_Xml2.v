(** The XML text of a value as a parser sees it. *)
From Coq Require Import Lia.
From Verif Require Import Base Value Text M_Marshal M_BinUnmarshal M_TreeBuilder M_Base64 M_Dump M_Json M_Iso M_Url M_Xml
  S_Value S_Base64 S_Iso S_Xml L_Base L_Text L_RoundTrip L_TreeBuilder L_Base64 L_Iso L_Json L_Xml.
Ltac Zify.zify_post_hook ::= Z.div_mod_to_equations.

(** ** Characters and line ends *)
Lemma urun_app : forall a b u, urun u (a ++ b) = match urun u a with Some u' => urun u' b | None => None end.
Proof. induction a as [|c a IH]; intros b u; cbn [app urun]; auto. destruct (ustep u c); auto. Qed.

Fixpoint cr_ok (s : bytes) : Prop :=
  match s with
  | [] => True
  | c :: r => (b2z c = 13 -> match r with d :: _ => b2z d = 10 | [] => False end) /\ cr_ok r
  end.
Lemma cr_ok_app : forall a b, cr_ok a -> cr_ok b -> cr_ok (a ++ b).
Proof.
  induction a as [|c a IH]; intros b HA HB; auto. destruct HA as [H1 H2]. cbn [app cr_ok]. split; auto.
  intro E. specialize (H1 E). destruct a; [contradiction|exact H1].
Qed.
Lemma no_cr_ok : forall s, ~ In x0d s -> cr_ok s.
Proof.
  induction s as [|c s IH]; intro H; cbn [cr_ok]; auto. split; [|apply IH; intro I; apply H; right; auto].
  intro E. exfalso. apply H. left. apply b2z_inj. exact E.
Qed.

Definition not_cr (c : byte) : bool := negb (b2z c =? 13).
Definition drop_cr (s : bytes) : bytes := filter not_cr s.
Lemma eol_drop : forall s, cr_ok s -> eol s = drop_cr s.
Proof.
  induction s as [|c s IH]; intro H; [reflexivity|]. destruct H as [H1 H2]. cbn [eol drop_cr filter]. unfold not_cr at 1.
  destruct (b2z c =? 13) eqn:E; cbn [negb].
  - destruct s as [|d s]; [exfalso; lia|]. replace (b2z d =? 10) with true by lia. apply IH. exact H2.
  - f_equal. apply IH. exact H2.
Qed.
Lemma drop_cr_app : forall a b, drop_cr (a ++ b) = drop_cr a ++ drop_cr b.
Proof. intros. apply filter_app. Qed.
Lemma drop_cr_id : forall s, ~ In x0d s -> drop_cr s = s.
Proof.
  induction s as [|c s IH]; intro H; [reflexivity|]. cbn [drop_cr filter]. unfold not_cr.
  destruct (b2z c =? 13) eqn:E; cbn [negb].
  - exfalso. apply H. left. apply b2z_inj. change (b2z x0d) with 13. lia.
  - f_equal. apply IH. intro I. apply H. right. auto.
Qed.

(** Text that can stand in a document. *)
Definition clean (s : bytes) : Prop := xml_chars s /\ cr_ok s.
Lemma clean_app : forall a b, clean a -> clean b -> clean (a ++ b).
Proof.
  intros a b [A1 A2] [B1 B2]. split; [|apply cr_ok_app; auto]. unfold xml_chars in *. rewrite urun_app, A1. exact B1.
Qed.
Lemma clean_nil : clean [].
Proof. split; [reflexivity|exact I]. Qed.
Lemma clean_flat_map : forall A (f : A -> bytes) l, Forall (fun x => clean (f x)) l -> clean (flat_map f l).
Proof. intros A f l F. induction F; [apply clean_nil|]. cbn [flat_map]. apply clean_app; auto. Qed.

(** Printable ASCII and line feeds. *)
Definition asc (c : byte) : bool := between 32 (b2z c) 126 || (b2z c =? 10).
Lemma asc_no_cr : forall s, forallb asc s = true -> ~ In x0d s.
Proof. intros s H I. rewrite forallb_forall in H. specialize (H _ I). discriminate. Qed.
Lemma asc_chars : forall s, forallb asc s = true -> xml_chars s.
Proof.
  unfold xml_chars. induction s as [|c s IH]; intro H; [reflexivity|]. cbn [forallb] in H. apply andb_true_iff in H. destruct H as [H1 H2].
  cbn [urun]. assert (E : ustep U0 c = Some U0).
  { unfold ustep, asc, between in *. replace (_ || _) with true by lia. reflexivity. }
  rewrite E. apply IH. exact H2.
Qed.
Lemma asc_clean : forall s, forallb asc s = true -> clean s.
Proof. intros s H. split; [apply asc_chars; auto|apply no_cr_ok, asc_no_cr; auto]. Qed.

(** Escaped text. *)
Lemma special_asc : forall u c u', ustep u c = Some u' -> b2z c < 128 -> u = U0 /\ u' = U0 \/ (exists lo hi n, u = UC lo hi n /\ lo < 128).
Proof.
  intros [|lo hi n|] c u' H L; unfold ustep, between in H.
  - left. split; auto.
    destruct ((b2z c =? 9) || (b2z c =? 10) || (b2z c =? 13) || ((32 <=? b2z c) && (b2z c <=? 127))) eqn:E; [congruence|].
    repeat match type of H with (if ?b then _ else _) = _ => destruct b eqn:?; [exfalso; lia|] end. discriminate.
  - right. exists lo, hi, n. split; auto. destruct ((lo <=? b2z c) && (b2z c <=? hi)) eqn:E; [lia|discriminate].
  - destruct ((128 <=? b2z c) && (b2z c <=? 190)) eqn:E; [lia|]. destruct (b2z c =? 191) eqn:E2; [lia|discriminate].
Qed.
Definition uwf (u : ustate) : Prop := match u with UC lo _ _ => 128 <= lo | _ => True end.
Lemma ustep_wf : forall u c u', ustep u c = Some u' -> uwf u'.
Proof.
  intros [|lo hi n|] c u' H; unfold ustep in H;
    repeat match type of H with (if ?b then _ else _) = _ => destruct b; [inversion H; subst; cbn; try destruct n; cbn; lia|] end; discriminate.
Qed.
Lemma urun_xquote : forall s u u', uwf u -> urun u s = Some u' -> urun u (xquote s) = Some u'.
Proof.
  induction s as [|c s IH]; intros u u' WU H; auto. cbn [urun] in H. destruct (ustep u c) as [u1|] eqn:E; [|discriminate].
  cbn [xquote flat_map]. fold (xquote s). rewrite urun_app.
  specialize (IH u1 u' (ustep_wf _ _ _ E) H).
  assert (SP : (b2z c = 60 \/ b2z c = 62 \/ b2z c = 34 \/ b2z c = 38) -> u = U0 /\ u1 = U0).
  { intro S4. destruct (special_asc _ _ _ E) as [?|(lo & hi & n & -> & L)]; [lia|auto|]. cbn in WU. lia. }
  unfold xquote_char, is_char.
  destruct (b2z c =? 60) eqn:E1; [destruct SP as [-> ->]; [lia|exact IH]|].
  destruct (b2z c =? 62) eqn:E2; [destruct SP as [-> ->]; [lia|exact IH]|].
  destruct (b2z c =? 34) eqn:E3; [destruct SP as [-> ->]; [lia|exact IH]|].
  destruct (b2z c =? 38) eqn:E4; [destruct SP as [-> ->]; [lia|exact IH]|].
  cbn [urun]. rewrite E. exact IH.
Qed.
Lemma xquote_no_cr : forall s, ~ In x0d s -> ~ In x0d (xquote s).
Proof.
  intros s H I. unfold xquote in I. apply in_flat_map in I. destruct I as (c & I & J).
  assert (C : c <> x0d) by (intros ->; auto). revert J C. unfold xquote_char, is_char.
  destruct (b2z c =? 60); [intros J _; cbn in J; repeat (destruct J as [J|J]; [discriminate|]); auto|].
  destruct (b2z c =? 62); [intros J _; cbn in J; repeat (destruct J as [J|J]; [discriminate|]); auto|].
  destruct (b2z c =? 34); [intros J _; cbn in J; repeat (destruct J as [J|J]; [discriminate|]); auto|].
  destruct (b2z c =? 38); [intros J _; cbn in J; repeat (destruct J as [J|J]; [discriminate|]); auto|].
  intros [J|[]] C. congruence.
Qed.
Lemma clean_xquote : forall s, xml_text s -> clean (xquote s).
Proof.
  intros s [C N]. split; [apply urun_xquote; [exact I|exact C]|apply no_cr_ok, xquote_no_cr; auto].
Qed.

(** Base64 text. *)
Lemma b64_plain : forall i, 0 <= i < 64 -> plain_char (b64_char i) = true.
Proof. apply all64. vm_compute. reflexivity. Qed.
Lemma plain_asc : forall c, plain_char c = true -> asc c = true.
Proof. intros c H. unfold plain_char, asc, between in *. lia. Qed.
Lemma plain_clean : forall s, forallb plain_char s = true -> clean s.
Proof.
  intros s H. apply asc_clean. rewrite forallb_forall in *. intros c I. apply plain_asc. auto.
Qed.

Lemma crlf_clean : clean crlf.
Proof. split; [reflexivity|]. cbn. split; [reflexivity|]. split; [discriminate|exact I]. Qed.
Definition b64c (c : byte) : bool := plain_char c || (b2z c =? 13) || (b2z c =? 10).
Lemma xb64_clean : forall s l, clean (let '(o, st) := xb64_loop true [] l s in o ++ xb64_tail true st)
  /\ forallb b64c (let '(o, st) := xb64_loop true [] l s in o ++ xb64_tail true st) = true.
Proof.
  assert (ONE : forall a t, forallb plain_char a = true -> clean t /\ forallb b64c t = true -> clean (a ++ t) /\ forallb b64c (a ++ t) = true).
  { intros a t P [C F]. split; [apply clean_app; auto; apply plain_clean; auto|]. rewrite forallb_app, F, andb_true_r.
    rewrite forallb_forall in *. intros c I. unfold b64c. rewrite (P _ I). reflexivity. }
  assert (TAIL : forall b : bool, clean (if b then crlf else []) /\ forallb b64c (if b then crlf else []) = true).
  { intros []; split; auto using crlf_clean, clean_nil. }
  induction s as [|a|a b|a b c r IH] using group3_ind; intro l.
  - cbn [xb64_loop xb64_tail fst snd app andb]. apply TAIL.
  - cbn [xb64_loop xb64_tail fst snd app andb]. pose proof (sextets a a a) as (S1 & S2 & S3 & S4 & S5 & S6).
    rewrite S1, S5. unfold step1, step2. pose proof (step_ranges a a) as (R1 & _ & _ & _ & R5 & _).
    match goal with |- clean ?x /\ _ => change x with ([b64_char (b2z a / 4); b64_char (b2z a mod 4 * 16 + 0 / 16); x3d; x3d] ++ (if negb (l =? 0) then crlf else [])) end.
    apply ONE; [|apply TAIL]. cbn [forallb]. rewrite !b64_plain by auto. reflexivity.
  - cbn [xb64_loop xb64_tail fst snd app andb]. pose proof (sextets a b a) as (S1 & S2 & _).
    pose proof (sextets b b b) as (_ & _ & _ & _ & _ & S6).
    rewrite S1, S2, S6. unfold step1, step2, step3. pose proof (step_ranges a b) as (R1 & R2 & _).
    pose proof (step_ranges b b) as (_ & _ & _ & _ & _ & R6).
    match goal with |- clean ?x /\ _ => change x with ([b64_char (b2z a / 4); b64_char (b2z a mod 4 * 16 + b2z b / 16);
      b64_char (b2z b mod 16 * 4 + 0 / 64); x3d] ++ (if negb (l =? 0) then crlf else [])) end.
    apply ONE; [|apply TAIL]. cbn [forallb]. rewrite !b64_plain by auto. reflexivity.
  - cbn [xb64_loop app]. pose proof (sextets a b c) as (S1 & S2 & S3 & S4 & _). rewrite S1, S2, S3, S4.
    unfold step1, step2, step3, step4. pose proof (step_ranges a b) as (R1 & R2 & _).
    pose proof (step_ranges b c) as (_ & _ & R3 & R4 & _).
    assert (P4 : forallb plain_char [b64_char (b2z a / 4); b64_char (b2z a mod 4 * 16 + b2z b / 16); b64_char (b2z b mod 16 * 4 + b2z c / 64); b64_char (b2z c mod 64)] = true).
    { cbn [forallb]. rewrite !b64_plain by auto. reflexivity. }
    destruct (72 <? l + 4) eqn:E; cbv iota beta.
    + specialize (IH 0). destruct (xb64_loop true [] 0 r) as [o st]. 
      match goal with |- clean ?x /\ _ => change x with ([b64_char (b2z a / 4); b64_char (b2z a mod 4 * 16 + b2z b / 16); b64_char (b2z b mod 16 * 4 + b2z c / 64); b64_char (b2z c mod 64)] ++ (crlf ++ (o ++ xb64_tail true st))) end.
      apply ONE; auto. destruct IH as [I1 I2]. split; [apply clean_app; auto using crlf_clean|]. rewrite forallb_app, I2. reflexivity.
    + specialize (IH (l + 4)). destruct (xb64_loop true [] (l + 4) r) as [o st].
      match goal with |- clean ?x /\ _ => change x with ([b64_char (b2z a / 4); b64_char (b2z a mod 4 * 16 + b2z b / 16); b64_char (b2z b mod 16 * 4 + b2z c / 64); b64_char (b2z c mod 64)] ++ (o ++ xb64_tail true st)) end.
      apply ONE; auto.
Qed.
Lemma b64_clean : forall cs, clean (write_encode_base64 true cs) /\ forallb b64c (write_encode_base64 true cs) = true.
Proof. intro cs. unfold write_encode_base64. pose proof (xb64_clean (concat cs) 0) as H. destruct (xb64_loop true [] 0 (concat cs)). exact H. Qed.

(** ** Reading *)
Definition prep (l : list sax) (k : option (list sax)) : option (list sax) := option_map (app l) k.
Lemma prep_app : forall a b k, prep a (prep b k) = prep (a ++ b) k.
Proof. intros a b [k|]; cbn; auto. rewrite app_assoc. reflexivity. Qed.
Lemma prep_nil : forall k, prep [] k = k.
Proof. intros [k|]; reflexivity. Qed.
Lemma more_prep : forall e k, more e k = prep [e] k.
Proof. reflexivity. Qed.

Definition chars (t : bytes) : list sax := map (fun c => SChars [c]) t.

(** Text without markup characters. *)
Definition textual (c : byte) : bool := negb (b2z c =? 60) && negb (b2z c =? 62) && negb (b2z c =? 38).
Lemma tok_text : forall t a stk seen r, forallb textual t = true ->
  xtok (a :: stk) seen LText (t ++ r) = prep (chars t) (xtok (a :: stk) seen LText r).
Proof.
  induction t as [|c t IH]; intros a stk seen r H; [symmetry; apply prep_nil|]. cbn [forallb] in H. apply andb_true_iff in H. destruct H as [H1 H2].
  unfold textual in H1. cbn [app xtok]. replace (b2z c =? 60) with false by lia. replace (b2z c =? 38) with false by lia.
  replace (b2z c =? 62) with false by lia. rewrite IH by auto. rewrite more_prep, prep_app. reflexivity.
Qed.
Lemma tok_quoted : forall t a stk seen r,
  xtok (a :: stk) seen LText (xquote t ++ r) = prep (chars t) (xtok (a :: stk) seen LText r).
Proof.
  induction t as [|c t IH]; intros a stk seen r; [symmetry; apply prep_nil|]. cbn [xquote flat_map]. fold (xquote t). rewrite <- app_assoc.
  assert (E : xtok (a :: stk) seen LText (xquote_char c ++ xquote t ++ r) = prep [SChars [c]] (xtok (a :: stk) seen LText (xquote t ++ r))).
  { unfold xquote_char, is_char.
    destruct (b2z c =? 60) eqn:E1; [apply Z.eqb_eq in E1; change 60 with (b2z x3c) in E1; apply b2z_inj in E1; subst; reflexivity|].
    destruct (b2z c =? 62) eqn:E2; [apply Z.eqb_eq in E2; change 62 with (b2z x3e) in E2; apply b2z_inj in E2; subst; reflexivity|].
    destruct (b2z c =? 34) eqn:E3; [apply Z.eqb_eq in E3; change 34 with (b2z x22) in E3; apply b2z_inj in E3; subst; reflexivity|].
    destruct (b2z c =? 38) eqn:E4; [apply Z.eqb_eq in E4; change 38 with (b2z x26) in E4; apply b2z_inj in E4; subst; reflexivity|].
    cbn [app xtok]. rewrite E1, E2, E4. reflexivity. }
  rewrite E, IH, prep_app. reflexivity.
Qed.

Lemma tok_tag : forall w acc stk seen r, forallb (fun c => negb (b2z c =? 62)) w = true ->
  xtok stk seen (LTag acc) (w ++ r) = xtok stk seen (LTag (rev w ++ acc)) r.
Proof.
  induction w as [|c w IH]; intros acc stk seen r H; [reflexivity|]. cbn [forallb] in H. apply andb_true_iff in H. destruct H as [H1 H2].
  cbn [app xtok]. apply negb_true_iff in H1. rewrite H1. rewrite IH by auto. cbn [rev]. rewrite <- app_assoc. reflexivity.
Qed.

Definition tag_name (w : bytes) : Prop :=
  forallb (fun c => negb (b2z c =? 62)) w = true /\ markup w = TStart w /\ markup (x2f :: w) = TEnd w.

Lemma tok_open : forall w a stk r, tag_name w ->
  xtok (a :: stk) true LText (x3c :: w ++ x3e :: r) = prep [SStart w] (xtok (w :: a :: stk) true LText r).
Proof.
  intros w a stk r (H1 & H2 & _). cbn [xtok]. change (b2z x3c =? 60) with true. cbv iota. rewrite tok_tag by auto.
  cbn [xtok]. change (b2z x3e =? 62) with true. cbv iota. rewrite app_nil_r, rev_involutive, H2. reflexivity.
Qed.
Lemma tok_root : forall w r, tag_name w ->
  xtok [] false LText (x3c :: w ++ x3e :: r) = prep [SStart w] (xtok [w] true LText r).
Proof.
  intros w r (H1 & H2 & _). cbn [xtok]. change (b2z x3c =? 60) with true. cbv iota. rewrite tok_tag by auto.
  cbn [xtok]. change (b2z x3e =? 62) with true. cbv iota. rewrite app_nil_r, rev_involutive, H2. reflexivity.
Qed.
Lemma tok_close : forall w stk r, tag_name w ->
  xtok (w :: stk) true LText (x3c :: x2f :: w ++ x3e :: r) = prep [SEnd w] (xtok stk true LText r).
Proof.
  intros w stk r (H1 & _ & H3).
  change (xtok (w :: stk) true LText (x3c :: x2f :: w ++ x3e :: r)) with (xtok (w :: stk) true (LTag []) ((x2f :: w) ++ x3e :: r)). rewrite tok_tag by exact H1.
  cbn [xtok]. change (b2z x3e =? 62) with true. cbv iota. rewrite app_nil_r, rev_involutive, H3, bytes_eqb_refl. reflexivity.
Qed.

Ltac tname := repeat split; vm_compute; reflexivity.

(** "<tag>text</tag>" *)
Definition elem (w : bytes) (l : list sax) : list sax := SStart w :: l ++ [SEnd w].
Definition snl : sax := SChars nl.

Lemma tok_tagged : forall tag t ct a stk r, tag_name (str tag) ->
  (forall stk' r', xtok (str tag :: stk') true LText (t ++ r') = prep ct (xtok (str tag :: stk') true LText r')) ->
  xtok (a :: stk) true LText (x_tagged tag t ++ r)
  = prep (elem (str "value") (elem (str tag) ct) ++ [snl]) (xtok (a :: stk) true LText r).
Proof.
  intros tag t ct a stk r TN HT. unfold x_tagged.
  match goal with |- xtok _ _ _ ?x = _ =>
    replace x with (x3c :: str "value" ++ x3e :: (x3c :: str tag ++ x3e :: (t ++ (x3c :: x2f :: str tag ++ x3e :: (x3c :: x2f :: str "value" ++ x3e :: (nl ++ r))))))
      by (repeat rewrite <- app_assoc; reflexivity) end.
  rewrite tok_open by tname. rewrite tok_open by auto. rewrite HT. rewrite tok_close by auto. rewrite tok_close by tname.
  rewrite (tok_text nl) by reflexivity. rewrite !prep_app. f_equal; unfold elem; cbn [app chars map nl]; rewrite <- ?app_assoc; cbn [app]; rewrite <- ?app_assoc; reflexivity.
Qed.

(** ** The callbacks for a value *)
Section Sax.
  Variable b64 : list bytes -> bytes.
  Variable show : Z -> bytes.

  Fixpoint xsax (v : value) : list sax :=
    match v with
    | VInt z => elem (str "value") (elem (str (int_tag z)) (chars (dec_signed z))) ++ [snl]
    | VBool b => elem (str "value") (elem (str "boolean") (chars (if b then str "1" else str "0"))) ++ [snl]
    | VNull => elem (str "value") (elem (str "nil") []) ++ [snl]
    | VDouble d => elem (str "value") (elem (str "double") (chars (show d))) ++ [snl]
    | VString s | VStringView s => elem (str "value") (elem (str "string") (chars s)) ++ [snl]
    | VBinary s => elem (str "value") (elem (str "base64") (chars (b64 [s]))) ++ [snl]
    | VBinaryRef _ cs => elem (str "value") (elem (str "base64") (chars (b64 cs))) ++ [snl]
    | VDateTime d => elem (str "value") (elem (str "dateTime.iso8601") (chars (iso_of_dt (dt_as_chars d)))) ++ [snl]
    | VStruct m =>
        elem (str "value") ([snl] ++ elem (str "struct") ([snl] ++
          flat_map (fun kv => elem (str "member") ([snl] ++ elem (str "name") (chars (fst kv)) ++ [snl] ++ xsax (snd kv)) ++ [snl]) m)
          ++ [snl]) ++ [snl]
    | VArray l =>
        elem (str "value") ([snl] ++ elem (str "array") ([snl] ++ elem (str "data") ([snl] ++ flat_map xsax l) ++ [snl]) ++ [snl]) ++ [snl]
    | VSecret x => xsax x
    end.
  Definition member_sax (kv : bytes * value) : list sax :=
    elem (str "member") ([snl] ++ elem (str "name") (chars (fst kv)) ++ [snl] ++ xsax (snd kv)) ++ [snl].

  Hypothesis B64_T : forall cs, forallb textual (b64 cs) = true.

  (** The markup characters do not occur in printed doubles. *)
  Fixpoint shown (v : value) : Prop :=
    match v with
    | VDouble d => forallb textual (show d) = true
    | VStruct m => (fix all (l : list (bytes * value)) : Prop := match l with [] => True | (_, x) :: r => shown x /\ all r end) m
    | VArray l => (fix all (l : list value) : Prop := match l with [] => True | x :: r => shown x /\ all r end) l
    | VSecret x => shown x
    | _ => True
    end.

  Lemma int_tag_name : forall z, tag_name (str (int_tag z)).
  Proof. intro z. unfold int_tag. destruct (_ =? 0); tname. Qed.

  Lemma digits_textual : forall s, Forall (fun b => is_digit b = true) s -> forallb textual s = true.
  Proof. intros s F. apply forallb_forall. rewrite Forall_forall in F. intros c I. specialize (F c I). unfold is_digit, textual in *. lia. Qed.
  Lemma dec_textual : forall z, forallb textual (dec_signed z) = true.
  Proof.
    intro z. unfold dec_signed. destruct (z <? 0) eqn:E.
    - destruct (dec_spec (- z)) as (_ & F & _); [lia|]. cbn [forallb]. rewrite digits_textual by auto. reflexivity.
    - destruct (dec_spec z) as (_ & F & _); [lia|]. apply digits_textual. exact F.
  Qed.
  Lemma pad_textual : forall w s, forallb textual s = true -> forallb textual (pad0 w s) = true.
  Proof. intros w s H. unfold pad0. rewrite forallb_app, H, andb_true_r. apply forallb_forall. intros c I. apply repeat_spec in I. subst. reflexivity. Qed.
  Lemma dec_pos_textual : forall z, 0 <= z -> forallb textual (dec z) = true.
  Proof. intros z H. destruct (dec_spec z H) as (_ & F & _). apply digits_textual. exact F. Qed.
  Lemma fmt_textual : forall w z, forallb textual (fmt_d w z) = true.
  Proof.
    intros w z. unfold fmt_d. destruct (z <? 0) eqn:E.
    - cbn [forallb]. rewrite pad_textual by (apply dec_pos_textual; lia). reflexivity.
    - apply pad_textual, dec_pos_textual. lia.
  Qed.
  Lemma iso_textual : forall d, forallb textual (iso_of_dt d) = true.
  Proof.
    intro d. unfold iso_of_dt, iso_text. rewrite !forallb_app, !fmt_textual. destruct (dt_tz d <=? 0); reflexivity.
  Qed.

  Definition reads (v : value) : Prop := forall a stk r,
    xtok (a :: stk) true LText (xtext b64 show v ++ r) = prep (xsax v) (xtok (a :: stk) true LText r).

  Lemma reads_flat : forall A (f : A -> bytes) (g : A -> list sax) a stk (l : list A),
    Forall (fun x => forall r, xtok (a :: stk) true LText (f x ++ r) = prep (g x) (xtok (a :: stk) true LText r)) l ->
    forall r, xtok (a :: stk) true LText (flat_map f l ++ r) = prep (flat_map g l) (xtok (a :: stk) true LText r).
  Proof.
    intros A f g a stk l F. induction F as [|x l H F IH]; intro r; [symmetry; apply prep_nil|]. cbn [flat_map].
    rewrite <- app_assoc, H, IH, prep_app. reflexivity.
  Qed.

  Lemma reads_member : forall kv a stk r, reads (snd kv) ->
    xtok (a :: stk) true LText (member_xtext b64 show kv ++ r) = prep (member_sax kv) (xtok (a :: stk) true LText r).
  Proof.
    intros [k x] a stk r R. unfold member_xtext, member_begin, member_sax. cbn [fst snd] in *.
    match goal with |- xtok _ _ _ ?t = _ =>
      replace t with (x3c :: str "member" ++ x3e :: (nl ++ (x3c :: str "name" ++ x3e :: (xquote k ++ (x3c :: x2f :: str "name" ++ x3e ::
        (nl ++ (xtext b64 show x ++ (x3c :: x2f :: str "member" ++ x3e :: (nl ++ r)))))))))
        by (repeat rewrite <- app_assoc; reflexivity) end.
    rewrite tok_open by tname. rewrite (tok_text nl) by reflexivity. rewrite tok_open by tname. rewrite tok_quoted. rewrite tok_close by tname.
    rewrite (tok_text nl) by reflexivity. rewrite R. rewrite tok_close by tname. rewrite (tok_text nl) by reflexivity.
    rewrite !prep_app. f_equal; unfold elem; cbn [app chars map nl]; rewrite <- ?app_assoc; cbn [app]; rewrite <- ?app_assoc; reflexivity.
  Qed.

  Theorem reads_all : forall v, shown v -> reads v.
  Proof.
    induction v as [z|b| |d|s|s|s|n cs|d|m IH|l IH|v IH] using value_nested_ind; intros SH a stk r; cbn [xtext xsax].
    - apply tok_tagged; [apply int_tag_name|]. intros. apply tok_text, dec_textual.
    - apply tok_tagged; [tname|]. intros. apply tok_text. destruct b; reflexivity.
    - transitivity (more (SStart (str "value")) (more (SStart (str "nil")) (more (SEnd (str "nil")) (more (SEnd (str "value"))
        (more snl (xtok (a :: stk) true LText r)))))); [reflexivity|]. rewrite !more_prep, !prep_app. reflexivity.
    - apply tok_tagged; [tname|]. intros. apply tok_text. exact SH.
    - apply tok_tagged; [tname|]. intros. apply tok_quoted.
    - apply tok_tagged; [tname|]. intros. apply tok_quoted.
    - apply tok_tagged; [tname|]. intros. apply tok_text. apply B64_T.
    - apply tok_tagged; [tname|]. intros. apply tok_text. apply B64_T.
    - apply tok_tagged; [tname|]. intros. apply tok_text. apply iso_textual.
    - fold (member_xtext b64 show). fold member_sax.
      assert (RM : forall a stk r, xtok (a :: stk) true LText (flat_map (member_xtext b64 show) m ++ r)
                  = prep (flat_map member_sax m) (xtok (a :: stk) true LText r)).
      { intros a0 stk0. apply reads_flat. cbn [shown] in SH.
        induction IH as [|[k x] m HX HM IHM]; constructor.
        - intro r0. apply reads_member. cbn [snd] in *. apply HX. apply SH.
        - apply IHM. apply SH. }
      change (fun kv => member_begin (fst kv) ++ xtext b64 show (snd kv) ++ str "</member>" ++ nl) with (member_xtext b64 show).
      change (fun kv => elem (str "member") ([snl] ++ elem (str "name") (chars (fst kv)) ++ [snl] ++ xsax (snd kv)) ++ [snl]) with member_sax.
      unfold x_struct_begin, x_close.
      match goal with |- xtok _ _ _ ?t = _ =>
        replace t with (x3c :: str "value" ++ x3e :: (nl ++ (x3c :: str "struct" ++ x3e :: (nl ++ (flat_map (member_xtext b64 show) m ++
          (x3c :: x2f :: str "struct" ++ x3e :: (nl ++ (x3c :: x2f :: str "value" ++ x3e :: (nl ++ r)))))))))
          by (repeat rewrite <- app_assoc; reflexivity) end.
      rewrite tok_open by tname. rewrite (tok_text nl) by reflexivity. rewrite tok_open by tname. rewrite (tok_text nl) by reflexivity.
      rewrite RM. rewrite tok_close by tname. rewrite (tok_text nl) by reflexivity. rewrite tok_close by tname. rewrite (tok_text nl) by reflexivity.
      rewrite !prep_app. f_equal; unfold elem; cbn [app chars map nl]; rewrite <- ?app_assoc; cbn [app]; rewrite <- ?app_assoc; reflexivity.
    - assert (RM : forall a stk r, xtok (a :: stk) true LText (flat_map (xtext b64 show) l ++ r)
                  = prep (flat_map xsax l) (xtok (a :: stk) true LText r)).
      { intros a0 stk0. apply reads_flat. cbn [shown] in SH.
        induction IH as [|x l HX HM IHM]; constructor.
        - intro r0. apply HX. apply SH.
        - apply IHM. apply SH. }
      unfold x_array_begin, x_close.
      match goal with |- xtok _ _ _ ?t = _ =>
        replace t with (x3c :: str "value" ++ x3e :: (nl ++ (x3c :: str "array" ++ x3e :: (nl ++ (x3c :: str "data" ++ x3e :: (nl ++ (flat_map (xtext b64 show) l ++
          (x3c :: x2f :: str "data" ++ x3e :: (nl ++ (x3c :: x2f :: str "array" ++ x3e :: (nl ++ (x3c :: x2f :: str "value" ++ x3e :: (nl ++ r)))))))))))))
          by (repeat rewrite <- app_assoc; reflexivity) end.
      rewrite tok_open by tname. rewrite (tok_text nl) by reflexivity. rewrite tok_open by tname. rewrite (tok_text nl) by reflexivity.
      rewrite tok_open by tname. rewrite (tok_text nl) by reflexivity.
      rewrite RM. rewrite tok_close by tname. rewrite (tok_text nl) by reflexivity. rewrite tok_close by tname. rewrite (tok_text nl) by reflexivity.
      rewrite tok_close by tname. rewrite (tok_text nl) by reflexivity.
      rewrite !prep_app. f_equal; unfold elem; cbn [app chars map nl]; rewrite <- ?app_assoc; cbn [app]; rewrite <- ?app_assoc; reflexivity.
    - exact (IH SH a stk r).
  Qed.
End Sax.
