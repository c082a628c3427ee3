(** The callbacks of a value rebuild it. *)
From Coq Require Import Lia.
From Verif Require Import Base Value Text M_Marshal M_BinUnmarshal M_TreeBuilder M_Base64 M_Dump M_Json M_Iso M_Url M_Xml
  S_Value S_Base64 S_Iso S_Xml L_Base L_Text L_RoundTrip L_TreeBuilder L_Base64 L_Iso L_Json L_Xml L_Xml2.
Ltac Zify.zify_post_hook ::= Z.div_mod_to_equations.

(** ** The text is clean *)
Ltac casc := apply asc_clean; vm_compute; reflexivity.

Lemma textual_digit : forall s, Forall (fun b => is_digit b = true) s -> forallb plain_char s = true.
Proof. intros s F. apply forallb_forall. rewrite Forall_forall in F. intros c I. specialize (F c I). unfold is_digit, plain_char, between in *. lia. Qed.
Lemma dec_plain : forall z, forallb plain_char (dec_signed z) = true.
Proof.
  intro z. unfold dec_signed. destruct (z <? 0) eqn:E.
  - destruct (dec_spec (- z)) as (_ & F & _); [lia|]. cbn [forallb]. rewrite textual_digit by auto. reflexivity.
  - destruct (dec_spec z) as (_ & F & _); [lia|]. apply textual_digit. exact F.
Qed.
Lemma pad_plain : forall w s, forallb plain_char s = true -> forallb plain_char (pad0 w s) = true.
Proof. intros w s H. unfold pad0. rewrite forallb_app, H, andb_true_r. apply forallb_forall. intros c I. apply repeat_spec in I. subst. reflexivity. Qed.
Lemma fmt_plain : forall w z, forallb plain_char (fmt_d w z) = true.
Proof.
  assert (D : forall z, 0 <= z -> forallb plain_char (dec z) = true).
  { intros z H. destruct (dec_spec z H) as (_ & F & _). apply textual_digit. exact F. }
  intros w z. unfold fmt_d. destruct (z <? 0) eqn:E.
  - cbn [forallb]. rewrite pad_plain by (apply D; lia). reflexivity.
  - apply pad_plain, D. lia.
Qed.
Lemma iso_plain : forall d, forallb plain_char (iso_of_dt d) = true.
Proof. intro d. unfold iso_of_dt, iso_text. rewrite !forallb_app, !fmt_plain. destruct (dt_tz d <=? 0); reflexivity. Qed.

Lemma clean_tagged : forall tag t, clean (str tag) -> clean t -> clean (x_tagged tag t).
Proof. intros tag t A C. unfold x_tagged. repeat (apply clean_app; auto); casc. Qed.

Section Clean.
  Variable show : Z -> bytes.
  Variable P : Z -> Prop.
  Hypothesis PS : forall d, P d -> forallb plain_char (show d) = true.
  Notation tx b := (xtext b show).

  Lemma clean_member : forall b64 kv, xml_text (fst kv) -> clean (tx b64 (snd kv)) -> clean (member_xtext b64 show kv).
  Proof.
    intros b64 [k x] T C. unfold member_xtext, member_begin. cbn [fst snd] in *.
    repeat (apply clean_app; auto using clean_xquote); casc.
  Qed.

  Lemma xtext_clean : forall b64, (forall cs, clean (b64 cs)) -> forall v, xml_wf P v -> clean (tx b64 v).
  Proof.
    intros b64 CB. induction v as [z|b| |d|s|s|s|n cs|d|m IH|l IH|v IH] using value_nested_ind; intro W; cbn [xtext].
    - apply clean_tagged; [unfold int_tag; destruct (_ =? 0); casc|]. apply plain_clean, dec_plain.
    - apply clean_tagged; [casc|]. destruct b; casc.
    - casc.
    - apply clean_tagged; [casc|]. apply plain_clean, PS. exact W.
    - apply clean_tagged; [casc|]. apply clean_xquote. exact W.
    - apply clean_tagged; [casc|]. apply clean_xquote. exact W.
    - apply clean_tagged; [casc|]. apply CB.
    - apply clean_tagged; [casc|]. apply CB.
    - apply clean_tagged; [casc|]. apply plain_clean, iso_plain.
    - apply xml_wf_struct in W. destruct W as [_ F]. apply clean_app; [casc|]. apply clean_app; [|casc].
      change (fun kv => member_begin (fst kv) ++ xtext b64 show (snd kv) ++ str "</member>" ++ nl) with (member_xtext b64 show).
      apply clean_flat_map. rewrite Forall_forall in *. intros kv I. destruct (F _ I) as (_ & T & X). apply clean_member; auto.
    - apply xml_wf_array in W. destruct W as [_ F]. apply clean_app; [casc|]. apply clean_app; [|casc].
      apply clean_flat_map. rewrite Forall_forall in *. auto.
    - exact (IH W).
  Qed.

  Lemma drop_plain : forall s, forallb plain_char s = true -> drop_cr s = s.
  Proof. intros s H. apply drop_cr_id, asc_no_cr. rewrite forallb_forall in *. intros c I. apply plain_asc. auto. Qed.
  Lemma drop_quoted : forall s, xml_text s -> drop_cr (xquote s) = xquote s.
  Proof. intros s [_ N]. apply drop_cr_id, xquote_no_cr. exact N. Qed.

  Lemma drop_tagged : forall tag t, drop_cr (str tag) = str tag -> drop_cr (x_tagged tag t) = x_tagged tag (drop_cr t).
  Proof. intros tag t H. unfold x_tagged. rewrite !drop_cr_app, H. reflexivity. Qed.

  Lemma xtext_drop : forall b64 v, xml_wf P v -> drop_cr (tx b64 v) = tx (fun cs => drop_cr (b64 cs)) v.
  Proof.
    intro b64. induction v as [z|b| |d|s|s|s|n cs|d|m IH|l IH|v IH] using value_nested_ind; intro W; cbn [xtext].
    - rewrite drop_tagged by (unfold int_tag; destruct (_ =? 0); reflexivity). rewrite drop_plain by apply dec_plain. reflexivity.
    - rewrite drop_tagged by reflexivity. destruct b; reflexivity.
    - reflexivity.
    - rewrite drop_tagged by reflexivity. rewrite drop_plain by (apply PS; exact W). reflexivity.
    - rewrite drop_tagged by reflexivity. rewrite drop_quoted by exact W. reflexivity.
    - rewrite drop_tagged by reflexivity. rewrite drop_quoted by exact W. reflexivity.
    - rewrite drop_tagged by reflexivity. reflexivity.
    - rewrite drop_tagged by reflexivity. reflexivity.
    - rewrite drop_tagged by reflexivity. rewrite drop_plain by apply iso_plain. reflexivity.
    - apply xml_wf_struct in W. destruct W as [_ F]. rewrite !drop_cr_app.
      change (drop_cr x_struct_begin) with x_struct_begin. change (drop_cr (x_close XK_struct)) with (x_close XK_struct).
      apply (f_equal (fun t => x_struct_begin ++ t ++ x_close XK_struct)).
      induction IH as [|[k x] m HX HM IHM]; [reflexivity|]. inversion F as [|? ? (_ & T & X) F']; subst. cbn [flat_map fst snd] in *.
      rewrite !drop_cr_app. rewrite IHM by auto. rewrite HX by auto. unfold member_begin. rewrite !drop_cr_app, drop_quoted by auto. reflexivity.
    - apply xml_wf_array in W. destruct W as [_ F]. rewrite !drop_cr_app.
      change (drop_cr x_array_begin) with x_array_begin. change (drop_cr (x_close XK_array)) with (x_close XK_array).
      apply (f_equal (fun t => x_array_begin ++ t ++ x_close XK_array)).
      induction IH as [|x l HX HM IHM]; [reflexivity|]. inversion F; subst. cbn [flat_map]. rewrite !drop_cr_app. rewrite IHM, HX by auto. reflexivity.
    - exact (IH W).
  Qed.

  Lemma plain_textual : forall s, forallb plain_char s = true -> forallb textual s = true.
  Proof. intros s H. rewrite forallb_forall in *. intros c I. specialize (H c I). unfold plain_char, textual in *. lia. Qed.
  Lemma xml_wf_shown : forall v, xml_wf P v -> shown show v.
  Proof.
    induction v as [z|b| |d|s|s|s|n cs|d|m IH|l IH|v IH] using value_nested_ind; intro W; try exact I.
    - apply plain_textual, PS. exact W.
    - apply xml_wf_struct in W. destruct W as [_ F]. cbn [shown].
      induction IH as [|[k x] m HX HM IHM]; [exact I|]. inversion F as [|? ? (_ & _ & X) F']; subst. split; [apply HX; exact X|apply IHM; exact F'].
    - apply xml_wf_array in W. destruct W as [_ F]. cbn [shown].
      induction IH as [|x l HX HM IHM]; [exact I|]. inversion F as [|? ? X F']; subst. split; [apply HX; exact X|apply IHM; exact F'].
    - exact (IH W).
  Qed.
End Clean.

(** ** Scalars *)
Lemma c_str_plain : forall s, forallb plain_char s = true -> c_str s = s.
Proof.
  unfold c_str. induction s as [|c s IH]; intro H; [reflexivity|]. cbn [forallb] in H. apply andb_true_iff in H. destruct H as [H1 H2].
  cbn [break_at]. unfold is_char. replace (b2z c =? 0) with false by (unfold plain_char, between in H1; lia).
  destruct (break_at 0 s) as [a b]. cbn [fst] in *. rewrite IH by auto. reflexivity.
Qed.
Lemma span_all : forall s, Forall (fun b => is_digit b = true) s -> span_digits s = (s, []).
Proof. intros s F. induction F as [|c s H F IH]; [reflexivity|]. cbn [span_digits]. rewrite H, IH. reflexivity. Qed.
Lemma strtol_dec : forall z, strtol_all (dec_signed z) = Some z.
Proof.
  intro z. unfold strtol_all. rewrite c_str_plain by apply dec_plain. unfold dec_signed. destruct (z <? 0) eqn:E.
  - destruct (dec_spec (- z)) as (NE & F & U & _); [lia|]. cbn [skip]. change (is_space x2d) with false. cbv iota.
    change (is_char 45 x2d) with true. cbv iota. rewrite span_all by auto. destruct (dec (- z)) as [|c r]; [congruence|].
    unfold bytes in *. f_equal. lia.
  - destruct (dec_spec z) as (NE & F & U & _); [lia|]. destruct (dec z) as [|c r] eqn:D; [congruence|].
    pose proof (Forall_inv F) as F1. pose proof (Forall_inv_tail F) as F2. cbv beta in F1. pose proof F1 as F0. unfold is_digit in F1. cbn [skip]. unfold is_space.
    replace ((9 <=? b2z c) && (b2z c <=? 13) || (b2z c =? 32)) with false by lia.
    unfold is_char. replace (b2z c =? 45) with false by lia. replace (b2z c =? 43) with false by lia.
    rewrite span_all by (constructor; auto). f_equal. exact U.
Qed.
Lemma iso_chars : forall d, iso_range d -> parse_iso (iso_of_dt (dt_as_chars d)) = Ok (iso_fields d).
Proof.
  intros d H. assert (E : dt_as_chars d = mkDT (dt_year d) (dt_month d) (dt_day d) (dt_hour d) (dt_min d) (dt_sec d) (s8 (dt_wday d)) (dt_unix d) (dt_tz d)).
  { unfold dt_as_chars. destruct H as (H0 & H1 & H2 & H3 & H4 & H5 & _). rewrite !s8_id by (unfold in_s8; lia). reflexivity. }
  rewrite E. apply (parse_iso_text (mkDT (dt_year d) (dt_month d) (dt_day d) (dt_hour d) (dt_min d) (dt_sec d) (s8 (dt_wday d)) (dt_unix d) (dt_tz d))).
  exact H.
Qed.
Lemma squeeze_drop : forall s, squeeze (drop_cr s) = squeeze s.
Proof.
  induction s as [|c s IH]; [reflexivity|]. unfold drop_cr in *. cbn [filter]. destruct (not_cr c) eqn:E.
  - unfold squeeze in *. cbn [filter]. rewrite IH. reflexivity.
  - unfold squeeze in *. cbn [filter]. replace (blank c) with true; [exact IH|]. unfold blank, not_cr in *. lia.
Qed.
Lemma b64_drop : forall cs, b64_decode (drop_cr (write_encode_base64 true cs)) = concat cs.
Proof.
  intro cs. unfold b64_decode. rewrite process_blank, squeeze_drop.
  unfold write_encode_base64. pose proof (xb64_rfc true (concat cs) 0) as R. destruct (xb64_loop true [] 0 (concat cs)) as [o st].
  rewrite R, process_rfc. reflexivity.
Qed.
Lemma b64_drop_textual : forall cs, forallb textual (drop_cr (write_encode_base64 true cs)) = true.
Proof.
  intro cs. destruct (b64_clean cs) as [_ H]. rewrite forallb_forall in *. intros c I. apply filter_In in I. destruct I as [I _].
  specialize (H c I). unfold b64c, plain_char, textual in *. lia.
Qed.

(** ** The handlers *)
Section Steps.
  Context {B : Type}.
  Variable bstep : B -> event -> B * option fail.
  Variable strtod : bytes -> option Z.
  Variable show : Z -> bytes.
  Variable want : Z.
  Variable ver : version.
  Variable chk : bool.
  Notation steps := (sax_steps bstep strtod false want).
  Notation b64' := (fun cs => drop_cr (write_encode_base64 true cs)).
  Notation sx := (xsax b64' show).

  Definition dbl (d : Z) : Prop := strtod (show d) = Some d /\ forallb plain_char (show d) = true.

  (** The object inside a message. *)
  Definition st (t : xtype) (buf : bytes) : xun := mkXun t X_NONE 0 [] buf None ver chk.

  Lemma steps_app : forall a c u b, steps u b (a ++ c) = let '(u', b') := steps u b a in steps u' b' c.
  Proof.
    induction a as [|e a IH]; intros c u b; cbn [app sax_steps]; auto.
    destruct (sax_step bstep strtod false want u b e) as [u1 b1]. apply IH.
  Qed.
  Lemma steps_chars : forall s t buf b, steps (st t buf) b (chars s) = (st t (buf ++ s), b).
  Proof.
    induction s as [|c s IH]; intros t buf b; cbn [chars map sax_steps].
    - rewrite app_nil_r. reflexivity.
    - change (sax_step bstep strtod false want (st t buf) b (SChars [c])) with (st t (buf ++ [c]), b). cbv iota.
      fold (chars s). rewrite IH, <- app_assoc. reflexivity.
  Qed.

  Lemma steps_scalar : forall tag ty s e t buf b b',
    (forall t buf, sax_step bstep strtod false want (st t buf) b (SStart (str tag)) = (st ty [], b)) ->
    sax_step bstep strtod false want (st ty s) b (SEnd (str tag)) = x_caught (x_emit bstep (st ty s) b e (fun b => (st X_NONE s, b, None))) ->
    replay bstep b [e] = (b', None) ->
    exists buf', steps (st t buf) b (elem (str "value") (elem (str tag) (chars s)) ++ [snl]) = (st X_NONE buf', b').
  Proof.
    intros tag ty s e t buf b b' HS HE R. cbn [replay] in R. destruct (bstep b e) as [b1 [f|]] eqn:E; [discriminate|].
    inversion R; subst. exists (s ++ nl).
    unfold elem. cbn [app sax_steps].
    change (sax_step bstep strtod false want (st t buf) b (SStart (str "value"))) with (st X_STRING [], b). cbv iota.
    rewrite HS. rewrite <- !app_assoc, steps_app, steps_chars. cbn [app sax_steps]. rewrite HE. unfold x_emit. rewrite E. cbn [x_caught].
    reflexivity.
  Qed.

  Definition steps_ok (v : value) : Prop := forall t buf b b',
    replay bstep b (map xml_event (events v)) = (b', None) ->
    exists buf', steps (st t buf) b (sx v) = (st X_NONE buf', b').

  Lemma replay_app_inv : forall a c (b b' : B), replay bstep b (a ++ c) = (b', None) ->
    exists b1, replay bstep b a = (b1, None) /\ replay bstep b1 c = (b', None).
  Proof.
    induction a as [|e a IH]; intros c b b' H; cbn [app replay] in *; [eauto|].
    destruct (bstep b e) as [b1 [f|]]; [discriminate|]. auto.
  Qed.

  Lemma steps_items : forall l t buf b b', Forall steps_ok l ->
    replay bstep b (map xml_event (flat_map events l)) = (b', None) ->
    exists t' buf', steps (st t buf) b (flat_map sx l) = (st t' buf', b') /\ (t' = X_NONE \/ t' = t).
  Proof.
    induction l as [|x l IH]; intros t buf b b' F R; cbn [flat_map map replay] in *.
    - inversion R; subst. exists t, buf. split; auto.
    - inversion F as [|? ? HX HL]; subst. rewrite map_app in R. destruct (replay_app_inv _ _ _ _ R) as (b1 & R1 & R2).
      destruct (HX t buf b b1 R1) as (buf1 & E1). rewrite steps_app, E1.
      destruct (IH X_NONE buf1 b1 b' HL R2) as (t' & buf' & E2 & [->| ->]); rewrite E2; eauto.
  Qed.
  Lemma steps_members : forall l t buf b b', Forall (fun kv => steps_ok (snd kv)) l ->
    replay bstep b (map xml_event (flat_map member_events l)) = (b', None) ->
    exists t' buf', steps (st t buf) b (flat_map (member_sax b64' show) l) = (st t' buf', b') /\ (t' = X_NONE \/ t' = t).
  Proof.
    induction l as [|[k x] l IH]; intros t buf b b' F R; cbn [flat_map map replay] in *.
    - inversion R; subst. exists t, buf. split; auto.
    - inversion F as [|? ? HX HL]; subst. cbn [snd] in HX. rewrite map_app in R. destruct (replay_app_inv _ _ _ _ R) as (b1 & R1 & R2).
      unfold member_events in R1. cbn [fst snd map xml_event replay] in R1. destruct (bstep b (EMember k)) as [b0 [f|]] eqn:EM; [discriminate|].
      rewrite steps_app. unfold member_sax at 1, elem. cbn [fst snd app sax_steps].
      change (sax_step bstep strtod false want (st t buf) b (SStart (str "member"))) with (st X_NONE [], b). cbv iota.
      change (sax_step bstep strtod false want (st X_NONE []) b snl) with (st X_NONE nl, b). cbv iota.
      change (sax_step bstep strtod false want (st X_NONE nl) b (SStart (str "name"))) with (st X_MEMBER_NAME [], b). cbv iota.
      rewrite <- !app_assoc, steps_app, steps_chars. cbn [app sax_steps].
      assert (E1 : sax_step bstep strtod false want (st X_MEMBER_NAME k) b (SEnd (str "name")) = (st X_NONE k, b0)).
      { unfold sax_step, set_value_data, st; cbn [x_exc x_type x_buf x_main xtype_eqb]; unfold x_emit. rewrite EM. reflexivity. }
      rewrite E1.
      change (sax_step bstep strtod false want (st X_NONE k) b0 snl) with (st X_NONE (k ++ nl), b0). cbv iota.
      rewrite <- ?app_assoc, steps_app. destruct (HX X_NONE (k ++ nl) b0 b1 R1) as (buf1 & E2). rewrite E2. cbn [sax_steps app].
      change (sax_step bstep strtod false want (st X_NONE buf1) b1 (SEnd (str "member"))) with (st X_NONE buf1, b1). cbv iota.
      change (sax_step bstep strtod false want (st X_NONE buf1) b1 snl) with (st X_NONE (buf1 ++ nl), b1). cbv iota.
      destruct (IH X_NONE (buf1 ++ nl) b1 b' HL R2) as (t' & buf' & E3 & [->| ->]); rewrite E3; eauto.
  Qed.

  Lemma int_step : forall z, - 2 ^ 63 < z < 2 ^ 63 -> forall b tag, get_value_type tag = X_INT ->
    sax_step bstep strtod false want (st X_INT (dec_signed z)) b (SEnd tag)
    = x_caught (x_emit bstep (st X_INT (dec_signed z)) b (EInt z) (fun b => (st X_NONE (dec_signed z), b, None))).
  Proof.
    intros z H b tag T. unfold sax_step, set_value_data, st; cbn [x_exc x_type x_buf x_main xtype_eqb]; fold (st X_INT (dec_signed z)).
    rewrite strtol_dec. replace (Z.max (- 2 ^ 63) (Z.min (2 ^ 63 - 1) z)) with z by lia.
    replace (z =? z) with true by lia. cbn [orb negb andb]. rewrite andb_false_r. cbn [x_main st xtype_eqb]. unfold x_emit.
    destruct (bstep b (EInt z)) as [b' [f|]]; [reflexivity|]. cbn [close_entity]. unfold close_entity. rewrite T. reflexivity.
  Qed.

  Theorem steps_all : forall v, xml_wf dbl v -> steps_ok v.
  Proof.
    induction v as [z|b0| |d|s|s|s|n cs|d|m IH|l IH|v IH] using value_nested_ind; intros W t buf b b' R; cbn [xsax].
    - cbn [events map xml_event] in R. cbn [xml_wf] in W. unfold int_tag.
      destruct (_ =? 0); (eapply steps_scalar with (ty := X_INT); [reflexivity| |exact R]; apply int_step; auto).
    - eapply steps_scalar with (ty := X_BOOL); [reflexivity| |exact R]. destruct b0; unfold sax_step, set_value_data, st; cbn [x_exc x_type x_buf x_main xtype_eqb]; unfold x_emit; cbn [xml_event];
        change (match str "1" with c :: _ => is_char 49 c | [] => false end) with true;
        change (match str "0" with c :: _ => is_char 49 c | [] => false end) with false;
        match goal with |- context [bstep b ?e] => destruct (bstep b e) as [b1 [f|]] end; reflexivity.
    - cbn [events map xml_event replay] in R. destruct (bstep b ENull) as [b1 [f|]] eqn:E; [discriminate|]. inversion R; subst.
      exists nl. unfold elem. cbn [app sax_steps].
      change (sax_step bstep strtod false want (st t buf) b (SStart (str "value"))) with (st X_STRING [], b). cbv iota.
      change (sax_step bstep strtod false want (st X_STRING []) b (SStart (str "nil"))) with (st X_NULL [], b). cbv iota.
      assert (E1 : sax_step bstep strtod false want (st X_NULL []) b (SEnd (str "nil")) = (st X_NONE [], b')).
      { unfold sax_step, set_value_data, st; cbn [x_exc x_type x_buf x_main xtype_eqb]; unfold x_emit. rewrite E. reflexivity. }
      rewrite E1. reflexivity.
    - eapply steps_scalar with (ty := X_DOUBLE); [reflexivity| |exact R]. destruct W as [W1 W2].
      unfold sax_step, set_value_data, st; cbn [x_exc x_type x_buf x_main xtype_eqb]; rewrite c_str_plain, W1 by auto. unfold x_emit. cbn [xml_event].
      destruct (bstep b (EDouble d)) as [b1 [f|]]; reflexivity.
    - eapply steps_scalar with (ty := X_STRING); [reflexivity| |exact R].
      unfold sax_step, set_value_data, st; cbn [x_exc x_type x_buf x_main xtype_eqb]; unfold x_emit. cbn [xml_event].
      destruct (bstep b (EString s)) as [b1 [f|]]; reflexivity.
    - eapply steps_scalar with (ty := X_STRING); [reflexivity| |exact R].
      unfold sax_step, set_value_data, st; cbn [x_exc x_type x_buf x_main xtype_eqb]; unfold x_emit. cbn [xml_event].
      destruct (bstep b (EString s)) as [b1 [f|]]; reflexivity.
    - eapply steps_scalar with (ty := X_BINARY); [reflexivity| |exact R].
      unfold sax_step, set_value_data, st; cbn [x_exc x_type x_buf x_main xtype_eqb]; rewrite b64_drop. cbn [concat]. rewrite app_nil_r. unfold x_emit. cbn [xml_event].
      destruct (bstep b (EBinary s)) as [b1 [f|]]; reflexivity.
    - eapply steps_scalar with (ty := X_BINARY); [reflexivity| |exact R].
      unfold sax_step, set_value_data, st; cbn [x_exc x_type x_buf x_main xtype_eqb]; rewrite b64_drop. unfold x_emit. cbn [xml_event].
      destruct (bstep b (EBinary (concat cs))) as [b1 [f|]]; reflexivity.
    - eapply steps_scalar with (ty := X_DATETIME); [reflexivity| |exact R].
      unfold sax_step, set_value_data, st; cbn [x_exc x_type x_buf x_main xtype_eqb]; rewrite iso_chars by exact W. unfold x_emit. cbn [xml_event].
      destruct (bstep b (EDateTime (iso_fields d))) as [b1 [f|]]; reflexivity.
    - apply xml_wf_struct in W. destruct W as [_ F].
      assert (FS : Forall (fun kv => steps_ok (snd kv)) m).
      { rewrite Forall_forall in *. intros kv I. destruct (F _ I) as (_ & _ & X). auto. }
      clear IH F.
      change (fun kv => elem (str "member") ([snl] ++ elem (str "name") (chars (fst kv)) ++ [snl] ++ sx (snd kv)) ++ [snl]) with (member_sax b64' show).
      rewrite events_struct in R. cbn [map xml_event replay] in R. destruct (bstep b (EOpenStruct 0)) as [b0 [f|]] eqn:EO; [discriminate|].
      rewrite map_app in R. destruct (replay_app_inv _ _ _ _ R) as (b1 & R1 & R2). cbn [map xml_event replay] in R2.
      destruct (bstep b1 ECloseStruct) as [b2 [f|]] eqn:EC; [discriminate|]. inversion R2; subst b2. clear R R2.
      unfold elem at 1 2. cbn [app sax_steps].
      change (sax_step bstep strtod false want (st t buf) b (SStart (str "value"))) with (st X_STRING [], b). cbv iota.
      change (sax_step bstep strtod false want (st X_STRING []) b snl) with (st X_STRING nl, b). cbv iota.
      assert (E1 : sax_step bstep strtod false want (st X_STRING nl) b (SStart (str "struct")) = (st X_NONE [], b0)).
      { unfold sax_step. cbn [x_exc st]. change (get_value_type (str "struct")) with X_STRUCT. unfold set_value_type.
        change (get_value_type (str "struct")) with X_STRUCT. cbn [x_response]. unfold x_response. cbn [x_main st xtype_eqb]. unfold x_emit. rewrite EO. reflexivity. }
      rewrite E1.
      change (sax_step bstep strtod false want (st X_NONE []) b0 snl) with (st X_NONE nl, b0). cbv iota.
      rewrite <- !app_assoc, steps_app.
      destruct (steps_members m X_NONE nl b0 b1 FS R1) as (t1 & buf1 & E2 & T1). rewrite E2.
      assert (t1 = X_NONE) by (destruct T1; auto). subst t1. cbn [app sax_steps].
      assert (E3 : sax_step bstep strtod false want (st X_NONE buf1) b1 (SEnd (str "struct")) = (st X_NONE buf1, b')).
      { unfold sax_step, set_value_data, st; cbn [x_exc x_type x_buf x_main xtype_eqb]; unfold close_entity. change (get_value_type (str "struct")) with X_STRUCT.
        cbn [x_none x_with x_main st xtype_eqb]. unfold x_emit. rewrite EC. reflexivity. }
      rewrite E3. eexists. reflexivity.
    - apply xml_wf_array in W. destruct W as [_ F].
      assert (FS : Forall steps_ok l).
      { rewrite Forall_forall in *. intros x I. auto. }
      clear IH F. cbn [events map xml_event replay] in R. destruct (bstep b (EOpenArray 0)) as [b0 [f|]] eqn:EO; [discriminate|].
      rewrite map_app in R. destruct (replay_app_inv _ _ _ _ R) as (b1 & R1 & R2). cbn [map xml_event replay] in R2.
      destruct (bstep b1 ECloseArray) as [b2 [f|]] eqn:EC; [discriminate|]. inversion R2; subst b2. clear R R2.
      unfold elem at 1 2 3. cbn [app sax_steps].
      change (sax_step bstep strtod false want (st t buf) b (SStart (str "value"))) with (st X_STRING [], b). cbv iota.
      change (sax_step bstep strtod false want (st X_STRING []) b snl) with (st X_STRING nl, b). cbv iota.
      assert (E1 : sax_step bstep strtod false want (st X_STRING nl) b (SStart (str "array")) = (st X_NONE [], b0)).
      { unfold sax_step. cbn [x_exc st]. unfold set_value_type.
        change (get_value_type (str "array")) with X_ARRAY. unfold x_response. cbn [x_main st xtype_eqb]. unfold x_emit. rewrite EO. reflexivity. }
      rewrite E1.
      change (sax_step bstep strtod false want (st X_NONE []) b0 snl) with (st X_NONE nl, b0). cbv iota.
      change (sax_step bstep strtod false want (st X_NONE nl) b0 (SStart (str "data"))) with (st X_NONE [], b0). cbv iota.
      change (sax_step bstep strtod false want (st X_NONE []) b0 snl) with (st X_NONE nl, b0). cbv iota.
      rewrite <- !app_assoc, steps_app.
      destruct (steps_items l X_NONE nl b0 b1 FS R1) as (t1 & buf1 & E2 & T1). rewrite E2.
      assert (t1 = X_NONE) by (destruct T1; auto). subst t1. cbn [app sax_steps].
      change (sax_step bstep strtod false want (st X_NONE buf1) b1 (SEnd (str "data"))) with (st X_NONE buf1, b1). cbv iota.
      change (sax_step bstep strtod false want (st X_NONE buf1) b1 snl) with (st X_NONE (buf1 ++ nl), b1). cbv iota.
      assert (E3 : sax_step bstep strtod false want (st X_NONE (buf1 ++ nl)) b1 (SEnd (str "array")) = (st X_NONE (buf1 ++ nl), b')).
      { unfold sax_step, set_value_data, st; cbn [x_exc x_type x_buf x_main xtype_eqb]; unfold close_entity. change (get_value_type (str "array")) with X_ARRAY.
        cbn [x_none x_with x_main st xtype_eqb]. unfold x_emit. rewrite EC. reflexivity. }
      rewrite E3. eexists. reflexivity.
    - exact (IH W t buf b b' R).
  Qed.
End Steps.
