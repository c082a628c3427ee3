(** Lemmas about XML messages. *)
From Coq Require Import Lia.
From Verif Require Import Base Value Text M_Marshal M_BinUnmarshal M_TreeBuilder M_Base64 M_Dump M_Json M_Iso M_Url M_Xml
  S_Value S_Base64 S_Iso S_Xml L_Base L_Text L_RoundTrip L_TreeBuilder L_Base64 L_Iso L_Json.
Ltac Zify.zify_post_hook ::= Z.div_mod_to_equations.

(** ** The text of a value *)
Section XText.
  Variable b64 : list bytes -> bytes.
  Variable show : Z -> bytes.

  Definition int_tag (z : Z) : string := if Z.land (if z <? 0 then - z else z) (mask 31) =? 0 then "i4" else "i8".
  Definition iso_of_dt (d : datetime) : bytes :=
    iso_text (dt_year d) (dt_month d) (dt_day d) (dt_hour d) (dt_min d) (dt_sec d) (dt_tz d).
  Definition member_begin (k : bytes) : bytes := str "<member>" ++ nl ++ str "<name>" ++ xquote k ++ str "</name>" ++ nl.

  Fixpoint xtext (v : value) : bytes :=
    match v with
    | VInt z => x_tagged (int_tag z) (dec_signed z)
    | VBool b => x_tagged "boolean" (if b then str "1" else str "0")
    | VNull => str "<value><nil/></value>" ++ nl
    | VDouble d => x_tagged "double" (show d)
    | VString s | VStringView s => x_tagged "string" (xquote s)
    | VBinary s => x_tagged "base64" (b64 [s])
    | VBinaryRef _ cs => x_tagged "base64" (b64 cs)
    | VDateTime d => x_tagged "dateTime.iso8601" (iso_of_dt (dt_as_chars d))
    | VStruct m => x_struct_begin ++ flat_map (fun kv => member_begin (fst kv) ++ xtext (snd kv) ++ str "</member>" ++ nl) m
                   ++ x_close XK_struct
    | VArray l => x_array_begin ++ flat_map xtext l ++ x_close XK_array
    | VSecret x => xtext x
    end.
  Definition member_xtext (kv : bytes * value) : bytes := member_begin (fst kv) ++ xtext (snd kv) ++ str "</member>" ++ nl.
End XText.

Lemma xml_wf_struct : forall P m, xml_wf P (VStruct m) <->
  zlen m < 2 ^ 32 /\ Forall (fun kv => 1 <= blen (fst kv) <= 255 /\ xml_text (fst kv) /\ xml_wf P (snd kv)) m.
Proof.
  intros P m. cbn [xml_wf]. split; intros [L F]; split; auto; clear L.
  - induction m as [|[k x] m IH]; constructor; destruct F; auto.
  - induction F as [|[k x] m A F IH]; auto.
Qed.
Lemma xml_wf_array : forall P l, xml_wf P (VArray l) <-> zlen l < 2 ^ 32 /\ Forall (xml_wf P) l.
Proof.
  intros P l. cbn [xml_wf]. split; intros [L F]; split; auto; clear L.
  - induction l as [|x l IH]; constructor; destruct F; auto.
  - induction F as [|x l A F IH]; auto.
Qed.

Section Writes.
  Variable fin : Z -> bytes.
  Variable ver : version.
  Hypothesis MOD : 2 <= v_major ver.
  Notation calls := (xml_calls fin ver).
  Notation tx := (xtext (write_encode_base64 true) (show_double fin)).
  Notation mtx := (member_xtext (write_encode_base64 true) (show_double fin)).

  Lemma xml_calls_app : forall a b s, calls s (a ++ b) = xseq (calls s a) (fun s => calls s b).
  Proof.
    induction a as [|c a IH]; intros b s; cbn [app xml_calls].
    - cbn [xseq]. destruct (calls s b) as [[o s'] e]. reflexivity.
    - destruct (xml_call fin ver s c) as [[o s1] [e|]]; cbn [xseq]; auto. rewrite IH.
      destruct (calls s1 a) as [[o1 s2] [e|]]; cbn [xseq]; auto.
      destruct (calls s2 b) as [[o2 s3] e]. rewrite app_assoc. reflexivity.
  Qed.

  Definition xwrites (v : value) : Prop :=
    forall st mn, calls (mkXms st mn) (feed v)
      = (x_param_begin st ++ tx v ++ x_param_end st ++ fst (xdec st), mkXms (snd (xdec st)) mn, None).

  Lemma xvalue_eq : forall t st mn, xvalue t (mkXms st mn) =
    (x_param_begin st ++ t ++ x_param_end st ++ fst (xdec st), mkXms (snd (xdec st)) mn, None).
  Proof. intros. unfold xvalue. cbn [xm_stack xm_main]. destruct (xdec st). reflexivity. Qed.

  Lemma xwrites_scalar : forall v c, feed v = [c] -> (forall s, xml_call fin ver s c = xvalue (tx v) s) -> xwrites v.
  Proof.
    intros v c E H st mn. rewrite E. cbn [xml_calls]. rewrite H, xvalue_eq. cbn [xseq]. rewrite app_nil_r. reflexivity.
  Qed.

  Lemma u32_pred : forall n, 1 <= n < 2 ^ 32 -> u32 (n - 1) = n - 1.
  Proof. intros n H. apply u32_id. unfold in_u32. lia. Qed.

  Lemma xwrites_items : forall l st mn, Forall xwrites l -> l <> [] -> zlen l < 2 ^ 32 ->
    calls (mkXms ((XK_array, zlen l) :: st) mn) (feeds l)
    = (flat_map tx l ++ x_close XK_array ++ x_param_end st ++ fst (xdec st), mkXms (snd (xdec st)) mn, None).
  Proof.
    induction l as [|x l IH]; intros st mn F NE L; [congruence|]. inversion F as [|? ? Wx Fl]; subst.
    cbn [feeds]. rewrite xml_calls_app, Wx. cbn [xdec x_param_begin x_param_end app]. rewrite zlen_cons in *. pose proof (zlen_nonneg _ l).
    rewrite u32_pred by lia. replace (1 + zlen l - 1) with (zlen l) by lia.
    destruct l as [|y l].
    - rewrite zlen_nil. change (0 =? 0) with true. cbv iota. destruct (xdec st) as [o c].
      cbn [feeds xml_calls xseq flat_map fst snd x_member_end]. rewrite !app_nil_r. reflexivity.
    - assert (L1 : zlen (y :: l) = 1 + zlen l) by apply zlen_cons. pose proof (zlen_nonneg _ l).
      replace (zlen (y :: l) =? 0) with false by lia. cbn [xseq fst snd].
      rewrite IH by (auto; try discriminate; lia). cbn [xseq x_member_end app flat_map]. rewrite <- !app_assoc. reflexivity.
  Qed.

  Lemma xwrites_members : forall l st mn, Forall (fun kv => 1 <= blen (fst kv) <= 255 /\ xwrites (snd kv)) l -> l <> [] -> zlen l < 2 ^ 32 ->
    calls (mkXms ((XK_struct, zlen l) :: st) mn) (feed_members l)
    = (flat_map mtx l ++ x_close XK_struct ++ x_param_end st ++ fst (xdec st), mkXms (snd (xdec st)) mn, None).
  Proof.
    induction l as [|[k x] l IH]; intros st mn F NE L; [congruence|]. inversion F as [|? ? [K Wx] Fl]; subst. cbn [fst snd] in *.
    cbn [feed_members xml_calls xml_call]. unfold x_member.
    replace ((255 <? blen k) || (blen k =? 0)) with false by lia. cbn [xseq].
    rewrite xml_calls_app, Wx. cbn [xdec x_param_begin x_param_end app]. rewrite zlen_cons in *. pose proof (zlen_nonneg _ l).
    rewrite u32_pred by lia. replace (1 + zlen l - 1) with (zlen l) by lia.
    destruct l as [|y l].
    - rewrite zlen_nil. change (0 =? 0) with true. cbv iota. destruct (xdec st) as [o c].
      cbn [feed_members xml_calls xseq flat_map fst snd x_member_end]. unfold member_xtext. cbn [fst snd]. fold (member_begin k).
      rewrite !app_nil_r, <- !app_assoc. reflexivity.
    - assert (L1 : zlen (y :: l) = 1 + zlen l) by apply zlen_cons. pose proof (zlen_nonneg _ l).
      replace (zlen (y :: l) =? 0) with false by lia. cbn [xseq fst snd].
      rewrite IH by (auto; try discriminate; lia). cbn [xseq x_member_end flat_map]. unfold member_xtext at 3. cbn [fst snd]. fold (member_begin k).
      rewrite <- !app_assoc. reflexivity.
  Qed.

  Theorem xwrites_all : forall P v, xml_wf P v -> xwrites v.
  Proof.
    intro P. induction v as [z|b| |d|s|s|s|n cs|d|m IH|l IH|v IH] using value_nested_ind; intro W;
      try (eapply xwrites_scalar; reflexivity).
    - eapply xwrites_scalar; [reflexivity|]. intro s. cbn [xml_call]. unfold x_int. cbn [xml_wf] in W.
      replace (z =? - 2 ^ 63) with false by lia. cbn [xtext]. unfold int_tag.
      destruct (Z.land (if z <? 0 then - z else z) (mask 31) =? 0); [reflexivity|].
      replace (v_major ver <? 2) with false by lia. reflexivity.
    - apply xml_wf_struct in W. destruct W as [L F]. intros st mn. rewrite feed_struct. cbn [xml_calls xml_call].
      rewrite u32_id by (unfold in_u32; pose proof (zlen_nonneg _ m); lia). unfold x_container.
      change (tx (VStruct m)) with (x_struct_begin ++ flat_map mtx m ++ x_close XK_struct).
      destruct m as [|kv m].
      + rewrite zlen_nil. change (0 =? 0) with true. cbv iota. rewrite xvalue_eq. cbn [feed_members xml_calls xseq flat_map].
        rewrite app_nil_r. reflexivity.
      + replace (zlen (kv :: m) =? 0) with false by (rewrite zlen_cons; pose proof (zlen_nonneg _ m); lia). cbn [xm_stack xm_main xseq].
        rewrite xwrites_members; [|auto..|discriminate|auto].
        * rewrite <- !app_assoc. reflexivity.
        * rewrite Forall_forall in *. intros x I. destruct (F _ I) as (A & _ & C). auto.
    - apply xml_wf_array in W. destruct W as [L F]. intros st mn. rewrite feed_array. cbn [xml_calls xml_call].
      rewrite u32_id by (unfold in_u32; pose proof (zlen_nonneg _ l); lia). unfold x_container.
      change (tx (VArray l)) with (x_array_begin ++ flat_map tx l ++ x_close XK_array).
      destruct l as [|x l].
      + rewrite zlen_nil. change (0 =? 0) with true. cbv iota. rewrite xvalue_eq. cbn [feeds xml_calls xseq flat_map].
        rewrite app_nil_r. reflexivity.
      + replace (zlen (x :: l) =? 0) with false by (rewrite zlen_cons; pose proof (zlen_nonneg _ l); lia). cbn [xm_stack xm_main xseq].
        rewrite xwrites_items; [|auto..|discriminate|auto].
        * rewrite <- !app_assoc. reflexivity.
        * rewrite Forall_forall in *. intros y I. auto.
    - exact (IH W).
  Qed.

  Definition param_text (v : value) : bytes := str "<param>" ++ nl ++ tx v ++ str "</param>" ++ nl.
  Lemma xwrites_params : forall P params mn, Forall (xml_wf P) params ->
    calls (mkXms [] mn) (flat_map feed params) = (flat_map param_text params, mkXms [] mn, None).
  Proof.
    intros P params mn F. induction F as [|v l W F IH]; [reflexivity|]. cbn [flat_map]. rewrite xml_calls_app, (xwrites_all P v W).
    cbn [xdec fst snd xseq]. rewrite IH. unfold param_text, x_param_begin, x_param_end. rewrite !app_nil_r, <- !app_assoc. reflexivity.
  Qed.
End Writes.
