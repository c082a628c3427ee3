(** Reading whole XML documents. *)
From Coq Require Import Lia.
From Verif Require Import Base Value Text M_Marshal M_BinUnmarshal M_TreeBuilder M_Base64 M_Dump M_Json M_Iso M_Url M_Xml
  S_Value S_Base64 S_Iso S_Xml S_Wire L_Base L_Text L_RoundTrip L_TreeBuilder L_Base64 L_Iso L_Json L_Xml L_Xml2 L_Xml3 L_Xml4 L_Xml5.
Ltac Zify.zify_post_hook ::= Z.div_mod_to_equations.

Section Read.
  Context {B : Type}.
  Variable bstep : B -> event -> B * option fail.
  Variable strtod : bytes -> option Z.
  Variable fin : Z -> bytes.
  Variable want : Z.
  Notation show := (show_double fin).
  Notation steps := (sax_steps bstep strtod false want).
  Notation step := (sax_step bstep strtod false want).
  Notation b64' := (fun cs => drop_cr (write_encode_base64 true cs)).
  Notation sx := (xsax b64' show).
  Notation D := (dbl strtod show).
  Notation S0 := (st (mkVer 2 1) true).

  Definition done (u : xun) : Prop := x_exc u = None /\ x_type u = X_NONE.

  Lemma params_steps : forall l t buf b b', Forall (xml_wf D) l ->
    replay bstep b (map xml_event (flat_map events l)) = (b', None) ->
    exists t' buf', steps (S0 t buf) b (flat_map (param_sax fin) l) = (S0 t' buf', b') /\ (t' = X_NONE \/ t' = t).
  Proof.
    induction l as [|v l IH]; intros t buf b b' F R; cbn [flat_map map replay] in *.
    - inversion R; subst. exists t, buf. split; auto.
    - inversion F as [|? ? HX HL]; subst. rewrite map_app in R. destruct (replay_app_inv _ _ _ _ _ R) as (b1 & R1 & R2).
      rewrite sax_steps_app. unfold param_sax at 1, elem. cbn [app sax_steps].
      change (step (S0 t buf) b (SStart (str "param"))) with (S0 X_NONE [], b). cbv iota.
      change (step (S0 X_NONE []) b snl) with (S0 X_NONE nl, b). cbv iota.
      rewrite <- ?app_assoc, sax_steps_app.
      destruct (steps_all bstep strtod show want (mkVer 2 1) true v HX X_NONE nl b b1 R1) as (buf1 & E1). rewrite E1.
      cbn [app sax_steps].
      change (step (S0 X_NONE buf1) b1 (SEnd (str "param"))) with (S0 X_NONE buf1, b1). cbv iota.
      change (step (S0 X_NONE buf1) b1 snl) with (S0 X_NONE (buf1 ++ nl), b1). cbv iota.
      destruct (IH X_NONE (buf1 ++ nl) b1 b' HL R2) as (t' & buf' & E2 & [->| ->]); rewrite E2; eauto.
  Qed.

  (** "<params> ... </params>" and the end of the message *)
  Lemma tail_steps : forall l b b' root, Forall (xml_wf D) l -> (root = "methodCall" \/ root = "methodResponse")%string ->
    replay bstep b (map xml_event (flat_map events l)) = (b', None) ->
    exists u, steps (S0 X_NONE []) b ([snl] ++ flat_map (param_sax fin) l ++ [SEnd (str "params"); snl; SEnd (str root)]) = (u, b') /\ done u.
  Proof.
    intros l b b' root F RT R. cbn [app sax_steps].
    change (step (S0 X_NONE []) b snl) with (S0 X_NONE nl, b). cbv iota.
    rewrite sax_steps_app. destruct (params_steps l X_NONE nl b b' F R) as (t' & buf' & E & T). rewrite E.
    assert (t' = X_NONE) by tauto. subst t'. cbn [sax_steps].
    change (step (S0 X_NONE buf') b' (SEnd (str "params"))) with (S0 X_NONE buf', b'). cbv iota.
    change (step (S0 X_NONE buf') b' snl) with (S0 X_NONE (buf' ++ nl), b'). cbv iota.
    destruct RT as [-> | ->].
    - change (step (S0 X_NONE (buf' ++ nl)) b' (SEnd (str "methodCall"))) with (S0 X_NONE (buf' ++ nl), b'). eexists. split; [reflexivity|]. split; reflexivity.
    - change (step (S0 X_NONE (buf' ++ nl)) b' (SEnd (str "methodResponse"))) with (S0 X_NONE (buf' ++ nl), b'). eexists. split; [reflexivity|]. split; reflexivity.
  Qed.

  Definition welcome (ty : Z) : Prop := want = TYPE_ANY \/ want = ty.

  Definition root_state (m : xtype) (t : xtype) (buf : bytes) : xun := mkXun t m 0 [] buf None (mkVer 2 1) true.

  Lemma root_start : forall m name b, get_value_type (str name) = m -> (m = X_METHOD_CALL \/ m = X_METHOD_RESPONSE) ->
    welcome (main_code m) -> step xun_init b (SStart (str name)) = (root_state m X_NONE [], b).
  Proof.
    intros m name b G M W. unfold sax_step. cbn [xun_init x_exc]. unfold set_value_type. rewrite G.
    assert (C : negb (main_code m =? want) && negb (want =? TYPE_ANY) && (negb (xtype_eqb m X_FAULT) || negb (want =? T_METHOD_RESPONSE)) = false).
    { destruct W as [-> | ->]; [rewrite Z.eqb_refl|rewrite Z.eqb_refl]; cbn [negb andb]; rewrite ?andb_false_r; reflexivity. }
    destruct M as [-> | ->]; rewrite C; reflexivity.
  Qed.

  Lemma read_response : forall v b b1 b', xml_wf D v -> welcome T_METHOD_RESPONSE ->
    bstep b EMethodResponse = (b1, None) -> replay bstep b1 (map xml_event (events v)) = (b', None) ->
    exists u, steps xun_init b (response_doc fin v) = (u, b') /\ done u.
  Proof.
    intros v b b1 b' W WE E1 R. unfold response_doc, elem. cbn [app sax_steps].
    rewrite (root_start X_METHOD_RESPONSE "methodResponse") by auto. cbn [sax_steps].
    change (step (root_state X_METHOD_RESPONSE X_NONE []) b snl) with (root_state X_METHOD_RESPONSE X_NONE nl, b). cbv iota.
    assert (EP : step (root_state X_METHOD_RESPONSE X_NONE nl) b (SStart (str "params")) = (S0 X_NONE [], b1)).
    { unfold sax_step. cbn [root_state x_exc]. unfold set_value_type. change (get_value_type (str "params")) with X_NONE.
      unfold x_response. cbn [root_state x_main xtype_eqb]. unfold x_emit. rewrite E1. reflexivity. }
    rewrite EP.
    destruct (tail_steps [v] b1 b' "methodResponse") as (u & E & DN); [auto|auto| |].
    { cbn [flat_map]. rewrite app_nil_r. exact R. }
    exists u. split; [|exact DN]. rewrite <- E. f_equal. cbn [flat_map app]. rewrite app_nil_r. rewrite <- !app_assoc. reflexivity.
  Qed.

  Lemma steps_chars_root : forall s m t buf b, steps (root_state m t buf) b (chars s) = (root_state m t (buf ++ s), b).
  Proof.
    induction s as [|c s IH]; intros m t buf b; cbn [chars map sax_steps].
    - rewrite app_nil_r. reflexivity.
    - change (step (root_state m t buf) b (SChars [c])) with (root_state m t (buf ++ [c]), b). cbv iota.
      fold (chars s). rewrite IH, <- app_assoc. reflexivity.
  Qed.

  Lemma read_call : forall k l b b1 b', Forall (xml_wf D) l -> welcome T_METHOD_CALL ->
    bstep b (EMethodCall k) = (b1, None) -> replay bstep b1 (map xml_event (flat_map events l)) = (b', None) ->
    exists u, steps xun_init b (call_doc fin k l) = (u, b') /\ done u.
  Proof.
    intros k l b b1 b' W WE E1 R. unfold call_doc, elem. cbn [app sax_steps].
    rewrite (root_start X_METHOD_CALL "methodCall") by auto. cbn [sax_steps].
    change (step (root_state X_METHOD_CALL X_NONE []) b snl) with (root_state X_METHOD_CALL X_NONE nl, b). cbv iota.
    change (step (root_state X_METHOD_CALL X_NONE nl) b (SStart (str "methodName"))) with (root_state X_METHOD_CALL X_METHOD_NAME [], b). cbv iota.
    rewrite <- ?app_assoc, sax_steps_app, steps_chars_root. cbn [app sax_steps].
    assert (EP : step (root_state X_METHOD_CALL X_METHOD_NAME k) b (SEnd (str "methodName")) = (S0 X_NONE k, b1)).
    { unfold sax_step, set_value_data. cbn [root_state x_exc x_type x_buf]. unfold x_emit. rewrite E1. reflexivity. }
    rewrite EP.
    change (step (S0 X_NONE k) b1 snl) with (S0 X_NONE (k ++ nl), b1). cbv iota.
    change (step (S0 X_NONE (k ++ nl)) b1 (SStart (str "params"))) with (S0 X_NONE [], b1). cbv iota.
    destruct (tail_steps l b1 b' "methodCall") as (u & E & DN); [auto|auto|exact R|].
    exists u. split; [|exact DN]. rewrite <- E. f_equal. cbn [app]. rewrite <- ?app_assoc. reflexivity.
  Qed.

  (** The object inside a fault. *)
  Definition fs (t : xtype) (n : Z) (msg buf : bytes) : xun := mkXun t X_FAULT n msg buf None (mkVer 2 1) true.
  Lemma steps_chars_fault : forall s t n msg buf b, steps (fs t n msg buf) b (chars s) = (fs t n msg (buf ++ s), b).
  Proof.
    induction s as [|c s IH]; intros t n msg buf b; cbn [chars map sax_steps].
    - rewrite app_nil_r. reflexivity.
    - change (step (fs t n msg buf) b (SChars [c])) with (fs t n msg (buf ++ [c]), b). cbv iota.
      fold (chars s). rewrite IH, <- app_assoc. reflexivity.
  Qed.

  Lemma fault_scalar : forall tag ty n msg n' msg' s t buf b, 
    (forall buf t, step (fs t n msg buf) b (SStart (str tag)) = (fs ty n msg [], b)) ->
    step (fs ty n msg s) b (SEnd (str tag)) = (fs X_NONE n' msg' s, b) ->
    steps (fs t n msg buf) b (elem (str "value") (elem (str tag) (chars s)) ++ [snl]) = (fs X_NONE n' msg' (s ++ nl), b).
  Proof.
    intros tag ty n msg n' msg' s t buf b HS HE. unfold elem. cbn [app sax_steps].
    change (step (fs t n msg buf) b (SStart (str "value"))) with (fs X_STRING n msg [], b). cbv iota.
    rewrite HS. rewrite <- ?app_assoc, sax_steps_app, steps_chars_fault. cbn [app sax_steps]. rewrite HE. reflexivity.
  Qed.
  Lemma fault_member : forall name v n msg n' msg' t buf buf' b,
    (forall t buf, steps (fs t n msg buf) b (sx v) = (fs X_NONE n' msg' buf', b)) ->
    steps (fs t n msg buf) b (member_sax b64' show (str name, v)) = (fs X_NONE n' msg' (buf' ++ nl), b).
  Proof.
    intros name v n msg n' msg' t buf buf' b H. unfold member_sax, elem. cbn [fst snd app sax_steps].
    change (step (fs t n msg buf) b (SStart (str "member"))) with (fs X_NONE n msg [], b). cbv iota.
    change (step (fs X_NONE n msg []) b snl) with (fs X_NONE n msg nl, b). cbv iota.
    change (step (fs X_NONE n msg nl) b (SStart (str "name"))) with (fs X_MEMBER_NAME n msg [], b). cbv iota.
    rewrite <- ?app_assoc, sax_steps_app, steps_chars_fault. cbn [app sax_steps].
    change (step (fs X_MEMBER_NAME n msg (str name)) b (SEnd (str "name"))) with (fs X_NONE n msg (str name), b). cbv iota.
    change (step (fs X_NONE n msg (str name)) b snl) with (fs X_NONE n msg (str name ++ nl), b). cbv iota.
    rewrite <- ?app_assoc, sax_steps_app, H. cbn [app sax_steps]. reflexivity.
  Qed.

  Lemma read_fault : forall n msg b b', in_s32 n -> xml_text msg -> welcome T_METHOD_RESPONSE ->
    bstep b (EFault n msg) = (b', None) ->
    exists u, steps xun_init b (fault_doc fin n msg) = (u, b') /\ done u.
  Proof.
    intros n msg b b' H T WE EF. unfold fault_doc, fault_value.
    change (sx (VStruct [(str "faultCode", VInt n); (str "faultString", VString msg)]))
      with (elem (str "value") ([snl] ++ elem (str "struct") ([snl] ++ (member_sax b64' show (str "faultCode", VInt n)
        ++ member_sax b64' show (str "faultString", VString msg) ++ [])) ++ [snl]) ++ [snl]).
    set (M1 := member_sax b64' show (str "faultCode", VInt n)). set (M2 := member_sax b64' show (str "faultString", VString msg)).
    unfold elem. cbn [app sax_steps].
    rewrite (root_start X_METHOD_RESPONSE "methodResponse") by auto. cbn [sax_steps].
    change (step (root_state X_METHOD_RESPONSE X_NONE []) b snl) with (root_state X_METHOD_RESPONSE X_NONE nl, b). cbv iota.
    assert (E0 : step (root_state X_METHOD_RESPONSE X_NONE nl) b (SStart (str "fault")) = (fs X_NONE 0 [] [], b)).
    { unfold sax_step. cbn [root_state x_exc]. unfold set_value_type. change (get_value_type (str "fault")) with X_FAULT.
      assert (C : negb (main_code X_FAULT =? want) && negb (want =? TYPE_ANY) && (negb (xtype_eqb X_FAULT X_FAULT) || negb (want =? T_METHOD_RESPONSE)) = false).
      { destruct WE as [-> | ->]; [rewrite Z.eqb_refl, andb_false_r; reflexivity|]. change (T_METHOD_RESPONSE =? T_METHOD_RESPONSE) with true.
        cbn [xtype_eqb negb orb]. apply andb_false_r. }
      cbv zeta. rewrite C. reflexivity. }
    rewrite E0.
    change (step (fs X_NONE 0 [] []) b snl) with (fs X_NONE 0 [] nl, b). cbv iota.
    change (step (fs X_NONE 0 [] nl) b (SStart (str "value"))) with (fs X_STRING 0 [] [], b). cbv iota.
    change (step (fs X_STRING 0 [] []) b snl) with (fs X_STRING 0 [] nl, b). cbv iota.
    change (step (fs X_STRING 0 [] nl) b (SStart (str "struct"))) with (fs X_STRING 0 [] [], b). cbv iota.
    change (step (fs X_STRING 0 [] []) b snl) with (fs X_STRING 0 [] nl, b). cbv iota.
    rewrite ?app_nil_r, <- ?app_assoc. rewrite sax_steps_app.
    assert (EM1 : forall t buf, exists buf', steps (fs t 0 [] buf) b M1 = (fs X_NONE n [] buf', b)).
    { intros t buf. eexists. apply fault_member. intros t0 buf0. cbn [xsax].
      assert (IE : step (fs X_INT 0 [] (dec_signed n)) b (SEnd (str (int_tag n))) = (fs X_NONE n [] (dec_signed n), b)).
      { unfold sax_step, set_value_data. cbn [fs x_exc x_type x_buf]. rewrite strtol_dec. unfold in_s32 in H.
        replace (Z.max (- 2 ^ 63) (Z.min (2 ^ 63 - 1) n)) with n by lia. rewrite Z.eqb_refl. cbn [negb orb]. rewrite andb_false_r.
        cbn [x_main xtype_eqb]. unfold close_entity, int_tag. destruct (_ =? 0); reflexivity. }
      apply fault_scalar with (ty := X_INT); [|exact IE]. unfold int_tag. destruct (_ =? 0); reflexivity. }
    destruct (EM1 X_STRING nl) as [buf1 E1]. rewrite E1. rewrite sax_steps_app.
    assert (EM2 : forall t buf, exists buf', steps (fs t n [] buf) b M2 = (fs X_NONE n msg buf', b)).
    { intros t buf. eexists. apply fault_member. intros t0 buf0. cbn [xsax].
      apply fault_scalar with (ty := X_STRING); reflexivity. }
    destruct (EM2 X_NONE buf1) as [buf2 E2]. rewrite E2. cbn [app sax_steps].
    change (step (fs X_NONE n msg buf2) b (SEnd (str "struct"))) with (fs X_NONE n msg buf2, b). cbv iota.
    change (step (fs X_NONE n msg buf2) b snl) with (fs X_NONE n msg (buf2 ++ nl), b). cbv iota.
    change (step (fs X_NONE n msg (buf2 ++ nl)) b (SEnd (str "value"))) with (fs X_NONE n msg (buf2 ++ nl), b). cbv iota.
    change (step (fs X_NONE n msg (buf2 ++ nl)) b snl) with (fs X_NONE n msg ((buf2 ++ nl) ++ nl), b). cbv iota.
    set (bf := (buf2 ++ nl) ++ nl).
    assert (E3 : step (fs X_NONE n msg bf) b (SEnd (str "fault")) = (fs X_NONE 0 [] bf, b')).
    { unfold sax_step, set_value_data, close_entity. cbn [fs x_exc x_type x_none x_with x_main xtype_eqb].
      change (get_value_type (str "fault")) with X_FAULT. cbv iota. unfold x_emit, x_none, x_with, fs.
      cbn [x_type x_main x_fcode x_fmsg x_buf x_exc x_ver x_check xtype_eqb]. rewrite s32_id by auto. rewrite EF. reflexivity. }
    rewrite E3. eexists. split; [reflexivity|]. split; reflexivity.
  Qed.
End Read.

(** ** The tree *)
Definition dt_event (f : datetime -> datetime) (e : event) : event := match e with EDateTime d => EDateTime (f d) | e => e end.
Lemma map_flat : forall A C E (f : C -> E) (g : A -> list C) l, map f (flat_map g l) = flat_map (fun x => map f (g x)) l.
Proof. induction l as [|x l IH]; [reflexivity|]. cbn [flat_map]. rewrite map_app, IH. reflexivity. Qed.
Lemma events_plain : forall f v, events (plain f v) = map (dt_event f) (events v).
Proof.
  intro f. induction v as [z|b| |d|s|s|s|n cs|d|m IH|l IH|v IH] using value_nested_ind; try reflexivity.
  - cbn [plain]. rewrite !events_struct. cbn [map dt_event]. rewrite map_app. cbn [map dt_event].
    unfold zlen. rewrite map_length. f_equal; f_equal; clear - IH. induction IH as [|[k x] m HX HM IHM]; [reflexivity|]. cbn [map flat_map fst snd] in *.
    rewrite map_app, <- IHM. unfold member_events at 1 3. cbn [fst snd map dt_event app] in *. rewrite HX. reflexivity.
  - cbn [plain events map dt_event]. rewrite map_app. cbn [map dt_event].
    unfold zlen. rewrite map_length. f_equal; f_equal; clear - IH. induction IH as [|x l HX HM IHM]; [reflexivity|]. cbn [map flat_map].
    rewrite map_app, <- IHM, HX. reflexivity.
  - exact IH.
Qed.
Lemma shape_plain : forall f v, shape v -> shape (plain f v).
Proof.
  intro f. induction v as [z|b| |d|s|s|s|n cs|d|m IH|l IH|v IH] using value_nested_ind; intro W; try exact I.
  - apply shape_struct in W. destruct W as [I F]. cbn [plain]. apply shape_struct. split; [apply increasing_map; exact I|].
    rewrite Forall_forall in *. intros kv HI. apply in_map_iff in HI. destruct HI as (kv0 & <- & HI). cbn [fst snd]. destruct (F _ HI). split; auto.
  - apply shape_array in W. cbn [plain]. apply shape_array. rewrite Forall_forall in *. intros x HI. apply in_map_iff in HI.
    destruct HI as (x0 & <- & HI). auto.
  - exact (IH W).
Qed.
Lemma plain_twice : forall f g v, plain f (plain g v) = plain (fun d => f (g d)) v.
Proof.
  intros f g. induction v as [z|b| |d|s|s|s|n cs|d|m IH|l IH|v IH] using value_nested_ind; try reflexivity.
  - cbn [plain]. f_equal. rewrite map_map. apply map_ext_in. intros kv I. cbn [fst snd]. rewrite Forall_forall in IH. rewrite (IH _ I). reflexivity.
  - cbn [plain]. f_equal. rewrite map_map. apply map_ext_in. intros x I. rewrite Forall_forall in IH. auto.
  - exact IH.
Qed.
Lemma replay_xml : forall val es t, replay (tb_step val) t (map xml_event es) = replay (tb_step val) t (map (dt_event iso_fields) es).
Proof.
  intro val. induction es as [|e es IH]; intro t; [reflexivity|]. cbn [map replay].
  assert (E : tb_step val t (xml_event e) = tb_step val t (dt_event iso_fields e)) by (destruct e; reflexivity).
  rewrite E. destruct (tb_step val t (dt_event iso_fields e)) as [t1 [f|]]; auto.
Qed.
Lemma ordered_struct : forall m, ordered (VStruct m) <-> increasing m /\ Forall (fun kv => ordered (snd kv)) m.
Proof.
  intro m. cbn [ordered]. split; intros [I F]; split; auto; clear I.
  - induction m as [|[k x] m IH]; constructor; destruct F; auto.
  - induction F as [|[k x] m A F IH]; auto.
Qed.
Lemma ordered_array : forall l, ordered (VArray l) <-> Forall ordered l.
Proof.
  intro l. cbn [ordered]. split; intro F.
  - induction l as [|x l IH]; constructor; destruct F; auto.
  - induction F as [|x l A F IH]; auto.
Qed.
Lemma xml_shape : forall P v, xml_wf P v -> ordered v -> shape v.
Proof.
  intro P. induction v as [z|b| |d|s|s|s|n cs|d|m IH|l IH|v IH] using value_nested_ind; intros W O; try exact I.
  - apply xml_wf_struct in W. destruct W as [_ F]. apply ordered_struct in O. destruct O as [I O]. apply shape_struct. split; [exact I|].
    rewrite Forall_forall in *. intros kv HI. destruct (F _ HI) as (A & _ & C). specialize (O _ HI). split; [lia|]. auto.
  - apply xml_wf_array in W. destruct W as [_ F]. apply ordered_array in O. apply shape_array. rewrite Forall_forall in *. auto.
  - exact (IH W O).
Qed.
Definition xml_dt (val : option mktime_t) (d : datetime) : datetime := make_datetime val (iso_fields d).
Lemma xml_root : forall val v t, shape v -> tb_stack t = [] -> tb_under t = [] -> tb_first t = true ->
  exists m, replay (tb_step val) t (map xml_event (events v)) =
    (mkTB [] (RDone (plain (xml_dt val) v)) false m (tb_method t) (tb_errnum t) (tb_errmsg t) [], None).
Proof.
  intros val v t S T U F. rewrite replay_xml, <- events_plain.
  destruct (root_shape val (plain iso_fields v) t (shape_plain iso_fields v S) T U F) as [m E]. exists m. rewrite E, plain_twice. reflexivity.
Qed.
Lemma xml_items : forall val l t k, Forall shape l -> tb_stack t = [mkFrame k (BArr [])] ->
  exists m, replay (tb_step val) t (map xml_event (flat_map events l)) = (with_stack [mkFrame k (BArr (map (plain (xml_dt val)) l))] m t, None).
Proof.
  intros val l t k F T. rewrite replay_xml.
  replace (map (dt_event iso_fields) (flat_map events l)) with (flat_map events (map (plain iso_fields) l)).
  2:{ clear. induction l as [|v l IH]; [reflexivity|]. cbn [map flat_map]. rewrite map_app, <- IH, events_plain. reflexivity. }
  destruct (builds_items1 val (map (plain iso_fields) l) t k []) as [m E]; [|exact T|].
  - rewrite Forall_forall in *. intros x I. apply in_map_iff in I. destruct I as (v & <- & I). apply builds_shape, shape_plain. auto.
  - exists m. rewrite E. cbn [app]. rewrite map_map.
    replace (map (fun x => plain (make_datetime val) (plain iso_fields x)) l) with (map (plain (xml_dt val)) l); [reflexivity|].
    apply map_ext. intro v. symmetry. exact (plain_twice (make_datetime val) iso_fields v).
Qed.
