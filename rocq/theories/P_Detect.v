(** Properties of the choice of the format from the data: C74. *)
From Coq Require Import Lia.
From Verif Require Import Base Value Text M_Marshal M_BinUnmarshal M_TreeBuilder M_Base64 M_Dump M_Json M_Iso M_Url M_Registry M_Xml M_XmlUm M_Detect
  S_Value S_Events S_Iso S_Xml S_Wire S_Http S_XmlUm S_Detect L_Base L_Text L_Xml L_Xml2 L_Xml3 L_Xml4 L_Xml5 L_Xml6 L_Xml7 L_RoundTrip L_XmlUm L_XmlParser L_Detect P_RoundTrip P_Xml.

(** ** C74 *)
Lemma cut_arrives : forall data first rest, cut_after_4 data first rest -> arrives data (first :: rest).
Proof. intros data first rest (L & C & F). split; [exact C|]. constructor; [|exact F]. intros ->. unfold blen in L. cbn in L. lia. Qed.
Lemma cut_binary : forall data first rest, cut_after_4 data first rest -> starts_binary first = starts_binary data.
Proof.
  intros data first rest (L & C & _). destruct first as [|x [|y f]]; [unfold blen in L; cbn in L; lia|unfold blen in L; cbn in L; lia|].
  rewrite <- C. reflexivity.
Qed.
Lemma wire_binary : forall ver c cs wire, (c = PMethodResponse \/ (exists n, c = PMethodCall n) \/ exists k m, c = PFault k m) ->
  sent ver (c :: cs) = Ok wire -> starts_binary wire = true.
Proof.
  intros ver c cs wire HC H. unfold sent in H. cbn [bin_run] in H.
  assert (K : exists o f, bin_pack ver c = (o, f) /\ (f = None -> starts_binary o = true)).
  { destruct HC as [->|[(n & ->)|(k & m & ->)]]; cbn [bin_pack].
    - do 2 eexists. split; reflexivity.
    - destruct ((255 <? blen n) || (blen n =? 0)); do 2 eexists; (split; [reflexivity|]); [discriminate|reflexivity].
    - do 2 eexists. split; reflexivity. }
  destruct K as (o & f & E & K). rewrite E in H. destruct f as [[e|]|]; try discriminate. specialize (K eq_refl).
  destruct (bin_run ver cs) as [o' [[e|]|]]; inversion H; subst. destruct o as [|x [|y o]]; [discriminate|discriminate|exact K].
Qed.
Lemma text_not_binary : forall text doc, xml_doc text = Some doc -> starts_binary text = false.
Proof.
  intros text doc H. destruct text as [|x [|y text]]; [reflexivity|reflexivity|]. cbn [starts_binary].
  destruct (Z.eqb_spec (b2z x) 202) as [EX|]; [|reflexivity]. destruct (Z.eqb_spec (b2z y) 17) as [EY|]; [|reflexivity]. exfalso.
  assert (x = xca) by (apply b2z_inj; exact EX). assert (y = x11) by (apply b2z_inj; exact EY). subst. unfold xml_doc in H. cbn in H. discriminate.
Qed.

Section Readers.
  Variables (P : parser) (strtod : bytes -> option Z) (erange : bool) (val : option mktime_t).
  (** What the reader who leaves the choice to the library gets: the value, the call. *)
  Definition auto_value (want : Z) (first : bytes) (rest : list bytes) : res value := bind (auto_read P strtod erange val want first rest) tb_data.
  Definition auto_call (want : Z) (first : bytes) (rest : list bytes) : res (bytes * value) :=
    bind (auto_read P strtod erange val want first rest) (fun t => bind (tb_data t) (fun v => Ok (tb_method t, v))).

  (** Any bytes beginning with the magic number are read as the binary unmarshaller reads them. *)
  Theorem C74_binary : forall data first rest, cut_after_4 (xca :: x11 :: data) first rest ->
    auto_value TYPE_ANY first rest = received_value val TYPE_ANY (first :: rest) /\
    auto_call TYPE_ANY first rest = received_call val TYPE_ANY (first :: rest).
  Proof.
    intros data first rest H. unfold auto_value, auto_call. rewrite auto_long by apply H. rewrite (cut_binary _ _ _ H). split; reflexivity.
  Qed.
  (** Any others as the XML unmarshaller reads them. *)
  Theorem C74_xml : forall data first rest, cut_after_4 data first rest -> (forall tail, data <> xca :: x11 :: tail) ->
    let u := xml_um P strtod erange val TYPE_ANY in
    auto_value TYPE_ANY first rest = bind (um_got u (um_init u) (first :: rest)) tb_data /\
    auto_call TYPE_ANY first rest = bind (um_got u (um_init u) (first :: rest)) (fun t => bind (tb_data t) (fun v => Ok (tb_method t, v))).
  Proof.
    intros data first rest H HN. unfold auto_value, auto_call. rewrite auto_long by apply H. rewrite (cut_binary _ _ _ H).
    replace (starts_binary data) with false; [split; reflexivity|]. destruct data as [|x [|y data]]; [reflexivity|reflexivity|]. cbn [starts_binary].
    destruct (Z.eqb_spec (b2z x) 202) as [EX|]; [|reflexivity]. destruct (Z.eqb_spec (b2z y) 17) as [EY|]; [|reflexivity]. exfalso.
    apply (HN data). f_equal; [apply b2z_inj; exact EX|]. f_equal. apply b2z_inj. exact EY.
  Qed.
End Readers.
Print Assumptions C74_xml.
Print Assumptions C74_binary.

(** Messages of both formats are recognised and read back. *)
Theorem C74_response_partial : forall P fin strtod val ver v first rest text wire, faithful P ->
  modern ver -> wf ver v -> xml_wf (double_exact fin strtod) v -> ordered v ->
  sent ver (response_calls v) = Ok wire -> xml_output fin ver (response_calls v) = Ok text ->
  (cut_after_4 wire first rest -> auto_value P strtod false val TYPE_ANY first rest = Ok (plain (make_datetime val) v)) /\
  (cut_after_4 text first rest -> auto_value P strtod false val TYPE_ANY first rest = Ok (plain (fun d => make_datetime val (iso_fields d)) v)).
Proof.
  intros P fin strtod val ver v first rest text wire HF HM HW HX HO ES EX. split; intro HC; unfold auto_value; rewrite auto_long by apply HC; rewrite (cut_binary _ _ _ HC).
  - rewrite (wire_binary _ _ _ _ (or_introl eq_refl) ES). fold (received_value val TYPE_ANY (first :: rest)).
    destruct (C01_response_round_trip val TYPE_ANY ver v HM HW (or_introl eq_refl)) as (w & E1 & E2). apply E2. rewrite ES in E1. inversion E1; subst. apply HC.
  - assert (M : 2 <= v_major ver <= 3) by (unfold modern in HM; lia).
    destruct (C55_response_partial fin strtod val TYPE_ANY ver v M HX HO (or_introl eq_refl)) as (t & doc & E1 & E2 & E3). rewrite EX in E1. inversion E1; subst t.
    rewrite (text_not_binary _ _ E2). eapply xml_got; [exact HF|exact E2|apply cut_arrives; exact HC|discriminate|].
    intros xp last HD. specialize (E3 xp last HD). destruct (xml_received val strtod false TYPE_ANY xp last) as [t|e|]; try discriminate. exists t. split; [reflexivity|exact E3].
Qed.
Print Assumptions C74_response_partial.

Theorem C74_call_partial : forall P fin strtod val ver name params first rest text wire, faithful P ->
  modern ver -> name_ok name -> xml_text name -> Forall (wf ver) params -> Forall (fun v => xml_wf (double_exact fin strtod) v /\ ordered v) params ->
  sent ver (call_calls name params) = Ok wire -> xml_output fin ver (call_calls name params) = Ok text ->
  (cut_after_4 wire first rest -> auto_call P strtod false val TYPE_ANY first rest = Ok (name, VArray (map (plain (make_datetime val)) params))) /\
  (cut_after_4 text first rest -> auto_call P strtod false val TYPE_ANY first rest = Ok (name, VArray (map (plain (fun d => make_datetime val (iso_fields d))) params))).
Proof.
  intros P fin strtod val ver name params first rest text wire HF HM HN HT HW HX ES EX. split; intro HC; unfold auto_call; rewrite auto_long by apply HC; rewrite (cut_binary _ _ _ HC).
  - rewrite (wire_binary _ _ _ _ (or_intror (or_introl (ex_intro _ name eq_refl))) ES). fold (received_call val TYPE_ANY (first :: rest)).
    destruct (C02_call_round_trip val TYPE_ANY ver name params HM HN HW (or_introl eq_refl)) as (w & E1 & E2). apply E2. rewrite ES in E1. inversion E1; subst. apply HC.
  - assert (M : 2 <= v_major ver <= 3) by (unfold modern in HM; lia).
    destruct (C55_call_partial fin strtod val TYPE_ANY ver name params M HN HT HX (or_introl eq_refl)) as (t & doc & E1 & E2 & E3). rewrite EX in E1. inversion E1; subst t.
    rewrite (text_not_binary _ _ E2). eapply xml_got; [exact HF|exact E2|apply cut_arrives; exact HC|discriminate|].
    intros xp last HD. specialize (E3 xp last HD). destruct (xml_received val strtod false TYPE_ANY xp last) as [t|e|]; try discriminate. exists t. split; [reflexivity|exact E3].
Qed.
Print Assumptions C74_call_partial.

Theorem C74_fault_partial : forall P fin strtod val ver code msg first rest text wire, faithful P ->
  modern ver -> in_s32 code -> small (blen msg) -> xml_text msg -> msg <> [] ->
  sent ver [PFault code msg] = Ok wire -> xml_output fin ver [PFault code msg] = Ok text ->
  cut_after_4 wire first rest \/ cut_after_4 text first rest ->
  auto_value P strtod false val TYPE_ANY first rest = Err (FaultExn code msg).
Proof.
  intros P fin strtod val ver code msg first rest text wire HF HM HS HL HT HN ES EX [HC|HC]; unfold auto_value; rewrite auto_long by apply HC; rewrite (cut_binary _ _ _ HC).
  - rewrite (wire_binary _ _ _ _ (or_intror (or_intror (ex_intro _ code (ex_intro _ msg eq_refl)))) ES). fold (received_value val TYPE_ANY (first :: rest)).
    destruct (C03_fault_round_trip val TYPE_ANY ver code msg HM HS HL HN (or_introl eq_refl)) as (w & E1 & E2). apply E2. rewrite ES in E1. inversion E1; subst. apply HC.
  - assert (M : 2 <= v_major ver <= 3) by (unfold modern in HM; lia).
    destruct (C55_fault_partial fin strtod val TYPE_ANY ver code msg M HS HT HN (or_introl eq_refl)) as (t & doc & E1 & E2 & E3). rewrite EX in E1. inversion E1; subst t.
    rewrite (text_not_binary _ _ E2).
    assert (Q : forall xp last, delivery text xp last -> exists t, xml_received val strtod false TYPE_ANY xp last = Ok t /\ tb_data t = Err (FaultExn code msg)).
    { intros xp last HD. assert (H : - 2 ^ 63 < code < 2 ^ 63) by (unfold in_s32 in HS; lia).
      rewrite (fault_output fin (double_exact fin strtod) (exact_plain fin strtod) ver code msg M H) in EX. inversion EX; subst text.
      destruct (read_fault (tb_step val) strtod fin TYPE_ANY code msg tb_init _ HS HT (or_introl eq_refl) eq_refl) as (u & S & D).
      destruct (delivery_steps _ (tb_step val) strtod TYPE_ANY ver _ _ _ _ _ _ _ (proj1 M) (fault_doc_ok fin _ (exact_plain fin strtod) ver code msg H HT) HD S D) as (vv & E & EV).
      unfold xml_received. rewrite E. eexists. split; [reflexivity|]. destruct msg; [congruence|reflexivity]. }
    eapply xml_got; [exact HF|exact E2|apply cut_arrives; exact HC|discriminate|exact Q].
Qed.
Print Assumptions C74_fault_partial.

Definition rpc_wire (v : value) : bytes := fst (bin_run (mkVer 2 1) (response_calls v)).
Definition rpc_text (v : value) : bytes := match xml_output no_doubles (mkVer 2 1) (response_calls v) with Ok t => t | _ => [] end.
Example C74_sample : let v := VStruct [(str "a", VInt 7); (str "b", VArray [VNull; VString (str "x<y")])] in
  cut_after_4 (rpc_wire v) (ztake 4 (rpc_wire v)) [zdrop 4 (rpc_wire v)] /\ cut_after_4 (rpc_text v) (ztake 30 (rpc_text v)) [zdrop 30 (rpc_text v)] /\
  auto_value at_once no_strtod false None TYPE_ANY (ztake 4 (rpc_wire v)) [zdrop 4 (rpc_wire v)] = Ok v /\
  auto_value at_once no_strtod false None TYPE_ANY (ztake 30 (rpc_text v)) [zdrop 30 (rpc_text v)] = Ok v.
Proof.
  cbn zeta. split; [split; [vm_compute; discriminate|]; split; [vm_compute; reflexivity|]; repeat constructor; vm_compute; discriminate|].
  split; [split; [vm_compute; discriminate|]; split; [vm_compute; reflexivity|]; repeat constructor; vm_compute; discriminate|].
  split; vm_compute; reflexivity.
Qed.

(** ** What does not hold *)
(** A parser that finds an error where the text is not UTF-8, as libxml2 does. *)
Definition strict : parser :=
  mkParser (bytes * bool) ([], false)
    (fun s d => match urun U0 (fst s ++ d) with None => ((fst s ++ d, true), [], 9) | Some _ => ps_take at_once s d end).
Lemma urun_prefix : forall a b u, urun u (a ++ b) <> None -> urun u a <> None.
Proof. induction a as [|c a IH]; intros b u H; [discriminate|]. cbn [app urun] in *. destruct (ustep u c); [eapply IH; exact H|exact H]. Qed.
Lemma at_once_fst : forall s d s' batch code, ps_take at_once s d = (s', batch, code) -> fst s' = fst s ++ d.
Proof.
  intros s d s' batch code H. cbn [at_once ps_take] in H. destruct d as [|c d]; [inversion H; subst; rewrite app_nil_r; reflexivity|].
  destruct (snd s); [inversion H; subst; reflexivity|]. destruct (xml_doc (fst s ++ c :: d)); inversion H; subst; reflexivity.
Qed.
Lemma strict_reports : forall s pieces batches s', reports at_once s pieces batches s' -> urun U0 (fst s ++ concat pieces) <> None -> reports strict s pieces batches s'.
Proof.
  intros s pieces batches s' H. induction H as [s|s d s1 batch pieces batches s2 HT HR IH]; intro HU; [constructor|].
  cbn [concat] in HU. econstructor; [|apply IH].
  - cbn [strict ps_take]. rewrite app_assoc in HU. apply urun_prefix in HU. destruct (urun U0 (fst s ++ d)); [exact HT|congruence].
  - rewrite (at_once_fst _ _ _ _ _ HT), <- app_assoc. exact HU.
Qed.
Lemma reports_fst : forall s pieces batches s', reports at_once s pieces batches s' -> fst s' = fst s ++ concat pieces.
Proof.
  intros s pieces batches s' H. induction H as [s|s d s1 batch pieces batches s2 HT HR IH]; [cbn; rewrite app_nil_r; reflexivity|].
  rewrite IH, (at_once_fst _ _ _ _ _ HT). cbn [concat]. rewrite app_assoc. reflexivity.
Qed.
Lemma strict_faithful : faithful strict.
Proof.
  intros text doc pieces HD HA. destruct (at_once_faithful _ _ _ HD HA) as (batches & s & s' & last & HR & HT & HDE).
  assert (HU : urun U0 text <> None) by (unfold xml_doc in HD; destruct (urun U0 text); discriminate || congruence).
  exists batches, s, s', last. split; [|split; [|exact HDE]].
  - apply strict_reports; [exact HR|]. change (fst (ps_init at_once) ++ concat pieces) with (concat pieces). rewrite (proj1 HA). exact HU.
  - cbn [strict ps_take]. rewrite (reports_fst _ _ _ _ HR). change (fst (ps_init at_once) ++ concat pieces) with (concat pieces).
    rewrite app_nil_r, (proj1 HA). destruct (urun U0 text); [exact HT|congruence].
Qed.

(** A binary message that arrives in a first piece of less than four bytes is taken for XML and refused; of one byte, two are
    read. *)
Theorem C74_short_refuted : faithful strict /\ (exists m, forall rest, auto_value strict no_strtod false None TYPE_ANY (ztake 3 (rpc_wire (VInt 7))) rest = Err (StreamError m)) /\
  auto_value strict no_strtod false None TYPE_ANY (ztake 1 (rpc_text (VInt 7))) [zdrop 1 (rpc_text (VInt 7))] = UB.
Proof. split; [exact strict_faithful|]. split; [eexists; intros rest|]; vm_compute; reflexivity. Qed.
Print Assumptions C74_short_refuted.

(** The type the user wants is not checked in what came with the first piece: here a call where a response is wanted. *)
Theorem C74_wanted_refuted : exists wire, sent (mkVer 2 1) (call_calls (str "f") []) = Ok wire /\
  (exists e, received_value None T_METHOD_RESPONSE [wire] = Err e) /\ auto_value strict no_strtod false None T_METHOD_RESPONSE (ztake 5 wire) [zdrop 5 wire] = Ok (VArray []).
Proof. eexists. split; [vm_compute; reflexivity|]. split; [eexists|]; vm_compute; reflexivity. Qed.
Print Assumptions C74_wanted_refuted.
