(** Lemmas: [dumps] and [loads] of the Python binding with XML. *)
From Coq Require Import Lia.
From Verif Require Import Base Value Text Unicode M_Marshal M_BinUnmarshal M_TreeBuilder M_Base64 M_Dump M_Json M_Iso M_Url M_Http M_HttpIO M_HttpWriter M_Registry M_Server M_Xml M_XmlUm M_Python M_PyRegistry M_PyServer M_PyDumps
  S_Value S_Events S_Iso S_Xml S_Wire S_Http S_Registry S_Server S_Client S_XmlUm S_Python S_PyXml
  L_Base L_Text L_RoundTrip L_TreeBuilder L_Json L_Xml L_Xml2 L_Xml3 L_Xml4 L_Xml5 L_Xml6 L_Xml7 L_XmlUm L_PyText L_PyBuild L_PyRead L_Python L_PyLoad L_PyXmlMsg.
Ltac Zify.zify_post_hook ::= Z.div_mod_to_equations.

(** ** Both formats and the binary one *)
Lemma dumps_any_binary : forall host fin n major minor method params, n <> 0 ->
  dumps_any host fin n major minor method params =
  match dumps host major minor method params with PyOk o => PyOk (PyBytes o) | PyRaise e => PyRaise e | PyAbort => PyAbort | PyUndef => PyUndef end.
Proof.
  intros host fin n major minor method params H. unfold dumps_any, dumps. replace (n =? 0) with false by (symmetry; apply Z.eqb_neq; exact H). cbn [negb].
  destruct (match method with None => PyOk None | Some m => match method_arg m with PyOk s => PyOk (Some s) | PyRaise e => PyRaise e | PyAbort => PyAbort | PyUndef => PyUndef end end) as [name|e| |]; try reflexivity.
  destruct ((major <? 0) || (minor <? 0)); [reflexivity|]. unfold bin_create. destruct (3 <? v_major (mkVer (u8 major) (u8 minor))); [reflexivity|].
  set (ver := mkVer (u8 major) (u8 minor)).
  assert (R : forall cs, then_data true (run_calls fin true ver cs) = match M_Python.written ver cs with PyOk o => PyOk (PyBytes o) | PyRaise e => PyRaise e | PyAbort => PyAbort | PyUndef => PyUndef end).
  { intros cs. unfold run_calls, M_Python.written. destruct (bin_run ver (fst cs)) as [o [f|]]; [destruct f as [[]|]; reflexivity|]. destruct (snd cs); [reflexivity|]. cbn [then_data get_data]. rewrite app_nil_r. reflexivity. }
  destruct params; try reflexivity.
  - destruct name as [s|]; [apply R|]. destruct l; apply R.
  - destruct name as [s|]; [apply R|]. destruct l; apply R.
  - destruct (match params1 with PyInt z => Some z | PyBool b => Some (if b then 1 else 0) | _ => None end); [|reflexivity].
    destruct params2; try reflexivity. destruct (py_encode s); [|reflexivity]. destruct ((- 2 ^ 63 <=? z) && (z <? 2 ^ 63)); [apply R|]. rewrite R.
    destruct (M_Python.written ver ([PFault (-1) b], None)); reflexivity.
Qed.
Lemma loads_binary : forall host pass native P strtod erange data, loads_any host pass native P strtod erange (Some true) data = loads host pass native data.
Proof. intros. unfold loads_any, loads, take_binary. destruct (unmarshall _ _ _ _ _ _) as [[u b] f]. reflexivity. Qed.
Lemma loads_detected : forall host pass native P strtod erange data, 4 <= blen data -> is_magic data = true ->
  loads_any host pass native P strtod erange None data = loads host pass native data.
Proof.
  intros host pass native P strtod erange data L M. rewrite <- (loads_binary host pass native P strtod erange). unfold loads_any, take_detected.
  replace (blen data <? 4) with false by (symmetry; apply Z.ltb_ge; exact L). rewrite M. reflexivity.
Qed.

(** ** Characters *)
Lemma char_urun : forall c r, xml_char c -> urun U0 (utf8_char c ++ r) = urun U0 r.
Proof.
  intros c r H. unfold xml_char in H. unfold utf8_char.
  assert (B : forall z, 0 <= z < 256 -> b2z (z2b z) = z) by (intros z HZ; rewrite b2z_z2b; lia).
  assert (C : forall lo hi n z r, lo <= z <= hi -> 0 <= z < 256 -> urun (UC lo hi n) (z2b z :: r) = urun (match n with O => U0 | S m => UC 128 191 m end) r).
  { intros lo hi n z r0 H1 H2. cbn [urun ustep]. rewrite B by lia. unfold between. replace ((lo <=? z) && (z <=? hi)) with true by lia. reflexivity. }
  assert (C1 : forall st z r, urun st (z2b z :: r) = match ustep st (z2b z) with Some u => urun u r | None => None end) by reflexivity.
  destruct (Z.ltb_spec c 128).
  { cbn [app]. rewrite C1. cbn [ustep]. rewrite B by lia. replace ((c =? 9) || (c =? 10) || (c =? 13) || between 32 c 127) with true by (unfold between; lia). reflexivity. }
  destruct (Z.ltb_spec c 2048).
  { cbn [app]. remember (192 + c / 64) as a eqn:EA. remember (128 + c mod 64) as d eqn:ED. rewrite C1. cbn [ustep]. rewrite (B a) by lia.
    replace ((a =? 9) || (a =? 10) || (a =? 13) || between 32 a 127) with false by (unfold between; lia). replace (between 194 a 223) with true by (unfold between; lia).
    rewrite (C 128 191 O d) by lia. reflexivity. }
  destruct (Z.ltb_spec c 65536).
  { cbn [app]. remember (224 + c / 4096) as a eqn:EA. remember (128 + (c / 64) mod 64) as d eqn:ED. remember (128 + c mod 64) as e eqn:EE. rewrite C1. cbn [ustep]. rewrite (B a) by lia.
    replace ((a =? 9) || (a =? 10) || (a =? 13) || between 32 a 127) with false by (unfold between; lia). replace (between 194 a 223) with false by (unfold between; lia).
    destruct (Z.eqb_spec a 224); [rewrite (C 160 191 1%nat d), (C 128 191 O e) by lia; reflexivity|].
    destruct (between 225 a 236 || (a =? 238)) eqn:E1; [rewrite (C 128 191 1%nat d), (C 128 191 O e) by lia; reflexivity|]. unfold between in E1.
    destruct (Z.eqb_spec a 237); [rewrite (C 128 159 1%nat d), (C 128 191 O e) by lia; reflexivity|].
    replace (a =? 239) with true by lia. rewrite C1. cbn [ustep]. rewrite (B d) by lia.
    destruct (between 128 d 190) eqn:E2; [rewrite (C 128 191 O e) by lia; reflexivity|]. unfold between in E2. replace (d =? 191) with true by lia.
    rewrite (C 128 189 O e) by lia. reflexivity. }
  cbn [app]. remember (240 + c / 262144) as a eqn:EA. remember (128 + (c / 4096) mod 64) as d eqn:ED. remember (128 + (c / 64) mod 64) as e eqn:EE. remember (128 + c mod 64) as f eqn:EF. rewrite C1. cbn [ustep]. rewrite (B a) by lia.
  replace ((a =? 9) || (a =? 10) || (a =? 13) || between 32 a 127) with false by (unfold between; lia). replace (between 194 a 223) with false by (unfold between; lia).
  replace (a =? 224) with false by lia. replace (between 225 a 236 || (a =? 238)) with false by (unfold between; lia). replace (a =? 237) with false by lia. replace (a =? 239) with false by lia.
  destruct (Z.eqb_spec a 240); [rewrite (C 144 191 2%nat d), (C 128 191 1%nat e), (C 128 191 O f) by lia; reflexivity|].
  destruct (between 241 a 243) eqn:E1; [rewrite (C 128 191 2%nat d), (C 128 191 1%nat e), (C 128 191 O f) by lia; reflexivity|]. unfold between in E1.
  replace (a =? 244) with true by lia. rewrite (C 128 143 2%nat d), (C 128 191 1%nat e), (C 128 191 O f) by lia. reflexivity.
Qed.
Lemma str_urun : forall u, xml_str u -> xml_chars (flat_map utf8_char u).
Proof.
  unfold xml_chars. induction u as [|c u IH]; intros H; [reflexivity|]. inversion H; subst. cbn [flat_map]. rewrite char_urun by assumption. apply IH. assumption.
Qed.
Lemma xml_uchar : forall u, xml_str u -> Forall uchar u.
Proof. intros u H. eapply Forall_impl; [|exact H]. intros c X. unfold xml_char in X. unfold uchar. lia. Qed.
Lemma no_byte : forall z c, 0 <= z < 128 -> xml_char c -> c <> z -> ~ In (z2b z) (utf8_char c).
Proof.
  intros z c HZ HC NE I. assert (K : forall y, 0 <= y < 256 -> z2b y = z2b z -> y = z) by (intros y HY E; apply (f_equal b2z) in E; rewrite !b2z_z2b in E; lia).
  unfold xml_char in HC. unfold utf8_char in I.
  destruct (Z.ltb_spec c 128); [destruct I as [I|[]]; apply K in I; lia|].
  destruct (Z.ltb_spec c 2048); [repeat destruct I as [I|I]; try contradiction; apply K in I; lia|].
  destruct (Z.ltb_spec c 65536); repeat destruct I as [I|I]; try contradiction; apply K in I; lia.
Qed.
Lemma str_text : forall u, xml_str u -> xml_text (flat_map utf8_char u).
Proof.
  intros u H. split; [apply str_urun; exact H|]. intros I. apply in_flat_map in I as (c & IC & I). unfold xml_str in H. rewrite Forall_forall in H. specialize (H c IC).
  change x0d with (z2b 13) in I. revert I. apply no_byte; [lia|exact H|]. unfold xml_char in H. lia.
Qed.
Lemma str_no_zero : forall u, xml_str u -> ~ In 0 u.
Proof. intros u H I. unfold xml_str in H. rewrite Forall_forall in H. specialize (H 0 I). unfold xml_char in H. lia. Qed.

Lemma encode_xml : forall u, Forall uchar u -> py_encode u = Some (flat_map utf8_char u).
Proof.
  intros u H. destruct (encode_str u) as [[_ E]|[N _]]; [|exact E|tauto]. unfold is_str. eapply Forall_impl; [|exact H]. intros c X. unfold uchar in X. cbn beta. lia.
Qed.

(** ** Objects and values *)
Section Objects.
  Variable host : datetime -> datetime.
  Variable D : Z -> Prop.
  Notation has := (xml_has D).

  Lemma has_sends : forall p, has p -> py_sends (mkVer 2 1) p /\ no_nul_keys p.
  Proof.
    induction p as [|b|b|z|d|s|s|d|d|l IH|l IH|m IH|c m|] using py_nested_ind; intros H; cbn [xml_has py_sends no_nul_keys] in *; try contradiction; try (split; exact I).
    - split; [right; cbn; lia|exact I].
    - split; [unfold in_s64; lia|exact I].
    - split; [apply xml_uchar; exact H|exact I].
    - destruct H as [_ H]. rewrite all_items in H. rewrite !all_items. rewrite Forall_forall in H, IH. split; apply Forall_forall; intros x IX; apply IH; auto.
    - destruct H as [_ H]. rewrite all_items in H. rewrite !all_items. rewrite Forall_forall in H, IH. split; apply Forall_forall; intros x IX; apply IH; auto.
    - destruct H as [_ H]. rewrite (all_members2 (fun kv => exists u, fst kv = PyStr u /\ xml_str u /\ name_fits u) (fun kv => has (snd kv))) in H.
      rewrite (all_members2 (fun kv => exists u, fst kv = PyStr u /\ name_fits u) (fun kv => py_sends (mkVer 2 1) (snd kv))).
      rewrite (all_members2 (fun kv => forall u, fst kv = PyStr u -> ~ In 0 u) (fun kv => no_nul_keys (snd kv))).
      rewrite Forall_forall in H, IH. split; apply Forall_forall; intros kv IX; destruct (H kv IX) as [(u & E & X & N) H2]; destruct (IH kv IX H2) as [A B].
      + split; [eauto|exact A].
      + split; [|exact B]. intros u' E'. rewrite E in E'. inversion E'; subst. apply str_no_zero. exact X.
  Qed.
  Lemma has_wf : forall p, has p -> xml_wf D (value_of host p).
  Proof.
    induction p as [|b|b|z|d|s|s|d|d|l IH|l IH|m IH|c m|] using py_nested_ind; intros H; cbn [xml_has value_of xml_wf] in *; try contradiction; try exact I; try exact H.
    - apply str_text. exact H.
    - destruct H as [L H]. unfold zlen in *. rewrite map_length. split; [exact L|]. rewrite all_items in H. rewrite all_values. rewrite Forall_forall in *. intros v IV. apply in_map_iff in IV as (x & <- & IX). auto.
    - destruct H as [L H]. unfold zlen in *. rewrite map_length. split; [exact L|]. rewrite all_items in H. rewrite all_values. rewrite Forall_forall in *. intros v IV. apply in_map_iff in IV as (x & <- & IX). auto.
    - destruct H as [L H]. unfold zlen in *. rewrite map_length. split; [exact L|]. clear L. rewrite (all_members2 (fun kv => exists u, fst kv = PyStr u /\ xml_str u /\ name_fits u) (fun kv => has (snd kv))) in H.
      induction m as [|[k x] m IM]; [exact I|]. inversion H as [|? ? [(u & E & X & N) H2] H3]; inversion IH; subst. cbn [map fst snd] in *. subst k. cbn [key_bytes].
      split; [|apply IM; assumption]. split; [exact (proj2 N)|]. split; [apply str_text; exact X|auto].
  Qed.
  Lemma undated_value : forall p, has p -> value_of host (undated p) = plain iso_fields (value_of host p).
  Proof.
    induction p as [|b|b|z|d|s|s|d|d|l IH|l IH|m IH|c m|] using py_nested_ind; intros H; cbn [xml_has undated value_of plain] in *; try contradiction; try reflexivity.
    - f_equal. rewrite !map_map. destruct H as [_ H]. rewrite all_items in H. apply map_ext_in. intros x IX. rewrite Forall_forall in *. auto.
    - f_equal. rewrite !map_map. destruct H as [_ H]. rewrite all_items in H. apply map_ext_in. intros x IX. rewrite Forall_forall in *. auto.
    - f_equal. rewrite !map_map. destruct H as [_ H]. rewrite (all_members2 (fun kv => exists u, fst kv = PyStr u /\ xml_str u /\ name_fits u) (fun kv => has (snd kv))) in H.
      apply map_ext_in. intros kv IX. cbn [fst snd]. rewrite Forall_forall in *. f_equal. apply IH; [exact IX|]. apply H. exact IX.
  Qed.
  Lemma undated_has : forall p, has p -> has (undated p).
  Proof.
    induction p as [|b|b|z|d|s|s|d|d|l IH|l IH|m IH|c m|] using py_nested_ind; intros H; cbn [xml_has undated] in *; try contradiction; try exact I; try exact H.
    - destruct H as [L H]. unfold zlen in *. rewrite map_length. split; [exact L|]. rewrite all_items in *. rewrite Forall_forall in *. intros v IV. apply in_map_iff in IV as (x & <- & IX). auto.
    - destruct H as [L H]. unfold zlen in *. rewrite map_length. split; [exact L|]. rewrite all_items in *. rewrite Forall_forall in *. intros v IV. apply in_map_iff in IV as (x & <- & IX). auto.
    - destruct H as [L H]. unfold zlen in *. rewrite map_length. split; [exact L|]. rewrite (all_members2 (fun kv => exists u, fst kv = PyStr u /\ xml_str u /\ name_fits u) (fun kv => has (snd kv))) in *.
      rewrite Forall_forall in *. intros kv IV. apply in_map_iff in IV as (x & <- & IX). cbn [fst snd]. destruct (H x IX) as [A B]. split; auto.
  Qed.
  Lemma undated_object : forall p, is_object p -> is_object (undated p).
  Proof.
    induction p as [|b|b|z|d|s|s|d|d|l IH|l IH|m IH|c m|] using py_nested_ind; intros H; cbn [is_object undated] in *; try exact I; try exact H.
    - rewrite all_items in *. rewrite Forall_forall in *. intros v IV. apply in_map_iff in IV as (x & <- & IX). auto.
    - rewrite all_items in *. rewrite Forall_forall in *. intros v IV. apply in_map_iff in IV as (x & <- & IX). auto.
    - destruct H as [N H]. split; [rewrite map_map; cbn [fst]; exact N|]. rewrite (all_members2 (fun kv => is_object (fst kv)) (fun kv => is_object (snd kv))) in *.
      rewrite Forall_forall in *. intros kv IV. apply in_map_iff in IV as (x & <- & IX). cbn [fst snd]. destruct (H x IX) as [A B]. split; auto.
  Qed.
  (** What comes back. *)
  Lemma xml_back : forall native p q, is_object p -> has p -> S_Python.reads host native (plain iso_fields (value_of host p)) q -> q = seen host native (undated p).
  Proof.
    intros native p q O H R. rewrite <- undated_value in R by exact H. destruct (has_sends _ (undated_has p H)) as [S N].
    destruct (seen_reads host (mkVer 2 1) native (undated p) (undated_object p O) S N) as (_ & _ & _ & R'). exact (reads_one host native _ _ _ R R').
  Qed.
  Lemma has_uniq : forall p, is_object p -> has p -> uniq (value_of host p).
  Proof. intros p O H. destruct (has_sends p H) as [S N]. apply (seen_reads host (mkVer 2 1) true p O S N). Qed.

  (** ** Feeding *)
  Variable fin : Z -> bytes.
  Variable ver : version.
  Definition fed_xml (p : py) : Prop := snd (feed_py host p) = None /\ forall s k, xml_calls fin ver s (fst (feed_py host p) ++ k) = xml_calls fin ver s (feed (value_of host p) ++ k).
  Lemma calls_cons : forall c a b, (forall s, xml_calls fin ver s a = xml_calls fin ver s b) -> forall s, xml_calls fin ver s (c :: a) = xml_calls fin ver s (c :: b).
  Proof. intros c a b H s. cbn [xml_calls]. destruct (xml_call fin ver s c) as [[o s1] [f|]]; [reflexivity|]. cbn [xseq]. rewrite H. reflexivity. Qed.
  Lemma calls_skip : forall m a b, (forall s, xml_calls fin ver s a = xml_calls fin ver s b) -> forall s, xml_calls fin ver s (m ++ a) = xml_calls fin ver s (m ++ b).
  Proof. induction m as [|c m IH]; intros a b H s; [apply H|]. cbn [app]. apply calls_cons. intros s'. apply IH. exact H. Qed.
  Lemma fed_xml_seq : forall l, Forall fed_xml l -> snd (feed_seq (feed_py host) l) = None /\
    forall s k, xml_calls fin ver s (fst (feed_seq (feed_py host) l) ++ k) = xml_calls fin ver s (flat_map feed (map (value_of host) l) ++ k).
  Proof.
    induction l as [|x l IH]; intros F; [split; [reflexivity|]; intros; reflexivity|]. inversion F as [|? ? [A B] F']; subst. destruct (IH F') as [C E]. clear IH.
    cbn [feed_seq map flat_map]. destruct (feed_py host x) as [c o]. cbn [fst snd] in *. subst o. fold (feed_seq (feed_py host)). destruct (feed_seq (feed_py host) l) as [c' o']. cbn [fst snd] in *. subst o'.
    split; [reflexivity|]. intros s k. rewrite <- !app_assoc, B. apply calls_skip. intros s'. apply E.
  Qed.
  Lemma feed_array : forall l, feed (VArray l) = PArray (u32 (zlen l)) :: flat_map feed l.
  Proof. reflexivity. Qed.
  Lemma feed_struct : forall m, feed (VStruct m) = PStruct (u32 (zlen m)) :: flat_map (fun kv => PMember (fst kv) :: feed (snd kv)) m.
  Proof. intros m. cbn [feed]. f_equal. induction m as [|[k x] m IH]; [reflexivity|]. cbn [flat_map fst snd app]. rewrite IH. reflexivity. Qed.
  Lemma feeds_xml : forall p, has p -> fed_xml p.
  Proof.
    induction p as [|b|b|z|d|s|s|d|d|l IH|l IH|m IH|c m|] using py_nested_ind; intros H; cbn [xml_has] in H; try contradiction; try (split; [reflexivity|]; intros; reflexivity).
    - unfold fed_xml. cbn [feed_py value_of feed]. rewrite as_int_spec by lia. replace ((- 2 ^ 63 <=? z) && (z <? 2 ^ 63)) with true by lia. split; [reflexivity|]. intros; reflexivity.
    - unfold fed_xml. cbn [feed_py value_of feed]. rewrite (encode_xml s (xml_uchar s H)). split; [reflexivity|]. intros; reflexivity.
    - split; [reflexivity|]. intros s k. cbn [feed_py value_of feed fst app xml_calls].
      replace (xml_call fin ver s (PDateTime d)) with (xml_call fin ver s (PDateTime (dt_as_chars d))); [reflexivity|]. cbn [xml_call dt_as_chars dt_year dt_month dt_day dt_hour dt_min dt_sec dt_tz].
      unfold iso_range in H. rewrite !s8_id by (unfold in_s8; lia). reflexivity.
    - destruct H as [L H]. rewrite all_items in H. assert (F : Forall fed_xml l) by (rewrite Forall_forall in *; auto). destruct (fed_xml_seq l F) as [A B].
      unfold fed_xml. cbn [feed_py value_of]. rewrite feed_array. destruct (feed_seq (feed_py host) l) as [c o]. cbn [fst snd] in *. split; [exact A|]. intros s k. unfold zlen. rewrite map_length. cbn [app]. apply calls_cons. intros s'. apply B.
    - destruct H as [L H]. rewrite all_items in H. assert (F : Forall fed_xml l) by (rewrite Forall_forall in *; auto). destruct (fed_xml_seq l F) as [A B].
      unfold fed_xml. cbn [feed_py value_of]. rewrite feed_array. destruct (feed_seq (feed_py host) l) as [c o]. cbn [fst snd] in *. split; [exact A|]. intros s k. unfold zlen. rewrite map_length. cbn [app]. apply calls_cons. intros s'. apply B.
    - destruct H as [L H]. rewrite (all_members2 (fun kv => exists u, fst kv = PyStr u /\ xml_str u /\ name_fits u) (fun kv => has (snd kv))) in H.
      assert (Q : snd (feed_items (feed_py host) m) = None /\ forall s k, xml_calls fin ver s (fst (feed_items (feed_py host) m) ++ k) =
        xml_calls fin ver s (flat_map (fun kv => PMember (fst kv) :: feed (snd kv)) (map (fun kv => (key_bytes (fst kv), value_of host (snd kv))) m) ++ k)).
      { clear L. induction m as [|[k x] m IM]; [split; [reflexivity|]; intros; reflexivity|]. inversion H as [|? ? [(u & E & X & N) H2] H3]; inversion IH as [|? ? H4 H5]; subst. cbn [fst snd] in *. subst k.
        destruct (IM H5 H3) as [A B]. destruct (H4 H2) as [A1 B1]. cbn [feed_items]. rewrite (encode_xml u (xml_uchar u X)). cbn [map flat_map fst snd key_bytes].
        destruct (feed_py host x) as [c o]. cbn [fst snd] in *. subst o. fold (feed_items (feed_py host)). destruct (feed_items (feed_py host) m) as [c' o']. cbn [fst snd] in *. subst o'. split; [reflexivity|]. intros s k.
        cbn [app]. apply calls_cons. intros s'. rewrite <- !app_assoc, B1. apply calls_skip. intros s''. apply B. }
      destruct Q as [A B]. unfold fed_xml. cbn [feed_py value_of]. rewrite feed_struct. destruct (feed_items (feed_py host) m) as [c o]. cbn [fst snd] in *. split; [exact A|]. intros s k. unfold zlen. rewrite map_length. cbn [app]. apply calls_cons. intros s'. apply B.
  Qed.
End Objects.

(** ** Reading a whole document *)
Section Whole.
  Variable host : datetime -> datetime.
  Variable pass native : bool.
  Variable P : parser.
  Variable strtod : bytes -> option Z.
  Hypothesis HP : prompt P.
  Notation step := (pb_step host pass native).

  Lemma take_whole : forall ver body doc u b, 2 <= v_major ver -> xml_doc (x_magic ver ++ body) = Some doc ->
    sax_steps step strtod false TYPE_ANY xun_init pb_init doc = (u, b) -> done u -> take_xml host pass native P strtod false pb_init (x_magic ver ++ body) = (b, None).
  Proof.
    intros ver body doc u b M D S DN. destruct (HP _ _ D) as (s & batch & ET & J). unfold take_xml. rewrite ET.
    assert (DL : delivery (x_magic ver ++ body) [(x_magic ver ++ body, batch)] []).
    { unfold delivery. cbn [map concat fst snd]. rewrite !app_nil_r. split; [reflexivity|]. split; [intros p [<-|[]]; discriminate|]. split; [exists doc; split; [exact D|exact J]|]. split; [intros []|split; intros []]. }
    destruct (delivery_steps _ step strtod TYPE_ANY ver body doc pb_init b u _ _ M D DL S DN) as (v & E & _). unfold x_receive in E. cbn [x_unmarshall_all] in E.
    destruct (x_unmarshall step strtod false TYPE_ANY xun_init pb_init (x_magic ver ++ body) batch 0) as [[u1 b1] [f|]] eqn:EU; [discriminate|].
    unfold x_finish, x_unmarshall at 1, x_sniff in E. cbn [blen] in E. change (negb (blen [] =? 0) && x_check u1) with false in E. cbv iota in E. cbn [sax_steps] in E.
    destruct (x_exc u1) as [[e|]|]; cbn in E; try discriminate; destruct (xtype_eqb (x_type u1) X_NONE); inversion E; subst; reflexivity.
  Qed.
  Lemma magic_start : forall ver body, exists r, x_magic ver ++ body = x3c :: x3f :: x78 :: x6d :: r.
  Proof. intros ver body. unfold x_magic. eexists. reflexivity. Qed.
  Lemma whole_text : forall use ver body doc u b, use <> Some true -> 2 <= v_major ver -> xml_doc (x_magic ver ++ body) = Some doc ->
    sax_steps step strtod false TYPE_ANY xun_init pb_init doc = (u, b) -> done u ->
    loads_any host pass native P strtod false use (x_magic ver ++ body) =
    match pb_data b with
    | PyRaise e => PyRaise e | PyAbort => PyAbort | PyUndef => PyUndef
    | PyOk (PyFault code msg) => PyRaise (PE_Fault code msg)
    | PyOk v => match pb_name b with PyOk n => PyOk (v, n) | PyRaise e => PyRaise e | PyAbort => PyAbort | PyUndef => PyUndef end
    end.
  Proof.
    intros use ver body doc u b NU M D S DN. pose proof (take_whole ver body doc u b M D S DN) as T. unfold loads_any.
    replace (match use with None => take_detected host pass native P strtod false (x_magic ver ++ body) | Some true => take_binary host pass native pb_init (x_magic ver ++ body) | Some false => take_xml host pass native P strtod false pb_init (x_magic ver ++ body) end)
      with (b, @None fail); [reflexivity|].
    destruct use as [[|]|]; [congruence|symmetry; exact T|]. unfold take_detected. destruct (magic_start ver body) as (r & E).
    replace (blen (x_magic ver ++ body) <? 4) with false by (symmetry; apply Z.ltb_ge; rewrite E; unfold blen; cbn [List.length]; lia).
    replace (is_magic (x_magic ver ++ body)) with false by (rewrite E; reflexivity). symmetry. exact T.
  Qed.
  (** The text as a [str]. *)
  Lemma text_back : forall text doc, xml_doc text = Some doc -> exists u, get_data false text = PyOk (PyStr u) /\ py_encode u = Some text.
  Proof.
    intros text doc D. assert (X : xml_chars text) by (unfold xml_doc in D; unfold xml_chars; destruct (urun U0 text) as [[| |]|]; congruence).
    destruct (xml_is_text text X) as [u S]. pose proof (decode_same false text u S) as E. exists u. unfold get_data. rewrite E. split; [reflexivity|].
    destruct S as [S1 S2]. rewrite (encode_xml u S1). f_equal. symmetry. exact S2.
  Qed.
End Whole.

(** ** Writing *)
Section Write.
  Variable host : datetime -> datetime.
  Variable fin : Z -> bytes.
  Variable strtod : bytes -> option Z.
  Variable ver : version.
  Hypothesis HV : 2 <= v_major ver <= 3.
  Notation D := (double_exact fin strtod).

  Lemma run_xml : forall cs cs' text, snd cs = None -> (forall s, xml_calls fin ver s (fst cs) = xml_calls fin ver s cs') -> xml_output fin ver cs' = Ok text -> run_calls fin false ver cs = PyOk text.
  Proof.
    intros cs cs' text N E O. unfold run_calls. rewrite E, N. unfold xml_output in O. replace (3 <? v_major ver) with false in O by (symmetry; apply Z.ltb_ge; lia).
    destruct (xml_calls fin ver xms_init cs') as [[o s] [[e|]|]]; inversion O; subst; reflexivity.
  Qed.
  Lemma write_call : forall s l, name_ok s -> Forall (xml_has D) l ->
    run_calls fin false ver (PMethodCall s :: fst (feed_args host l), snd (feed_args host l)) = PyOk (x_magic ver ++ call_body fin s (map (value_of host) l)).
  Proof.
    intros s l NS F. assert (FF : Forall (fed_xml host fin ver) l) by (eapply Forall_impl; [|exact F]; intros p H; apply (feeds_xml host D); exact H).
    destruct (fed_xml_seq host fin ver l FF) as [A B].
    apply (run_xml _ (call_calls s (map (value_of host) l))); cbn [fst snd]; [exact A| |].
    - unfold call_calls. apply calls_cons. intros s'. specialize (B s' []). rewrite !app_nil_r in B. exact B.
    - apply (call_output fin D ver s); auto. rewrite Forall_forall in *. intros v IV. apply in_map_iff in IV as (x & <- & IX). apply has_wf. auto.
  Qed.
  Lemma write_response : forall x, xml_has D x ->
    run_calls fin false ver (PMethodResponse :: fst (feed_py host x), snd (feed_py host x)) = PyOk (x_magic ver ++ response_body fin (value_of host x)).
  Proof.
    intros x H. destruct (feeds_xml host D fin ver x H) as [A B].
    apply (run_xml _ (response_calls (value_of host x))); cbn [fst snd]; [exact A| |].
    - unfold response_calls. apply calls_cons. intros s'. specialize (B s' []). rewrite !app_nil_r in B. exact B.
    - apply (response_output fin D ver); auto. apply has_wf. exact H.
  Qed.
End Write.
