(** Lemmas: XML messages and the builder of the Python binding. *)
From Coq Require Import Lia.
From Verif Require Import Base Value Text Unicode M_Marshal M_BinUnmarshal M_TreeBuilder M_Base64 M_Dump M_Json M_Iso M_Url M_Http M_HttpIO M_HttpWriter M_Registry M_Server M_Xml M_XmlUm M_Python M_PyRegistry M_PyServer
  S_Value S_Events S_Iso S_Xml S_Wire S_Http S_Registry S_Server S_Client S_XmlUm S_Python S_PyServer S_PyClient
  L_Base L_Text L_RoundTrip L_TreeBuilder L_Json L_Xml L_Xml2 L_Xml3 L_Xml4 L_Xml5 L_Xml6 L_Xml7 L_XmlUm L_PyText L_PyBuild L_PyRead L_Python.

(** ** XML characters are text without NULs *)
Lemma urun_cont : forall lo hi n s, urun (UC lo hi n) s = Some U0 ->
  exists b r, s = b :: r /\ lo <= b2z b <= hi /\ urun (match n with O => U0 | S m => UC 128 191 m end) r = Some U0.
Proof.
  intros lo hi n [|b r] H; [discriminate|]. cbn [urun ustep] in H. unfold between in H.
  destruct (Z.leb_spec lo (b2z b)); [|discriminate]. destruct (Z.leb_spec (b2z b) hi); [|discriminate]. cbn [andb] in H. exists b, r. auto.
Qed.
Lemma urun_ef : forall s, urun UEF s = Some U0 -> exists b r, s = b :: r /\ 128 <= b2z b <= 191 /\ exists hi, hi <= 191 /\ urun (UC 128 hi 0) r = Some U0.
Proof.
  intros [|b r] H; [discriminate|]. cbn [urun ustep] in H. unfold between in H. exists b, r. split; [reflexivity|].
  destruct (Z.leb_spec 128 (b2z b)); cbn [andb] in H.
  - destruct (Z.leb_spec (b2z b) 190); [split; [lia|]; exists 191; split; [lia|exact H]|].
    destruct (Z.eqb_spec (b2z b) 191); [|discriminate]. split; [lia|]. exists 189. split; [lia|exact H].
  - destruct (Z.eqb_spec (b2z b) 191); [|discriminate]. lia.
Qed.
Lemma in_cont : forall b lo hi, lo <= b2z b <= hi -> cont b lo hi = true.
Proof. intros b lo hi H. unfold cont. apply andb_true_intro. split; apply Z.leb_le; lia. Qed.
Lemma xml_decode : forall n s, (List.length s <= n)%nat -> xml_chars s -> exists u, py_decode false s = Some u.
Proof.
  unfold xml_chars. induction n as [|n IH]; intros [|a s] L H; cbn [List.length] in L; try (exists []; reflexivity); [lia|].
  cbn [urun ustep] in H. cbn [py_decode]. pose proof (b2z_range a) as RA. unfold between in H. set (z := b2z a) in *.
  assert (K : forall r v, (List.length r <= n)%nat -> urun U0 r = Some U0 -> exists u, option_map (cons v) (py_decode false r) = Some u).
  { intros r v LR HR. destruct (IH r LR HR) as [u ->]. eexists. reflexivity. }
  assert (C2 : forall lo hi, 194 <= z <= 223 -> 128 <= lo -> hi <= 191 -> urun (UC lo hi 0) s = Some U0 -> (List.length s <= n)%nat ->
    exists u, match s with b :: r => if cont b 128 191 then option_map (cons ((z - 192) * 64 + (b2z b - 128))) (py_decode false r) else None | [] => None end = Some u).
  { intros lo hi HZ HL HH HU LS. destruct (urun_cont _ _ _ _ HU) as (b & r & -> & B & R). rewrite (in_cont b 128 191) by lia. cbn [List.length] in LS. apply K; [lia|exact R]. }
  assert (C3 : forall b1 lo hi, 224 <= z <= 239 -> s <> [] -> forall b r0, s = b :: r0 -> (if z =? 224 then 160 else 128) <= b2z b <= (if (z =? 237) && negb false then 159 else 191) -> 128 <= lo -> hi <= 191 ->
    urun (UC lo hi 0) r0 = Some U0 -> (List.length s <= n)%nat -> b1 = true ->
    exists u, match s with b :: c :: r =>
            if cont b (if z =? 224 then 160 else 128) (if (z =? 237) && negb false then 159 else 191) && cont c 128 191
            then option_map (cons (((z - 224) * 64 + (b2z b - 128)) * 64 + (b2z c - 128))) (py_decode false r) else None | _ => None end = Some u).
  { intros _ lo hi HZ _ b r0 -> B HL HH HU LS _. destruct (urun_cont _ _ _ _ HU) as (c & r & -> & C & R). rewrite (in_cont b _ _ B), (in_cont c 128 191) by lia. cbn [andb List.length] in *. apply K; [lia|exact R]. }
  assert (C4 : forall lo hi, 240 <= z <= 244 -> urun (UC lo hi 2) s = Some U0 -> lo = (if z =? 240 then 144 else 128) -> hi = (if z =? 244 then 143 else 191) -> (List.length s <= n)%nat ->
    exists u, match s with b :: c :: d :: r =>
            if cont b (if z =? 240 then 144 else 128) (if z =? 244 then 143 else 191) && cont c 128 191 && cont d 128 191
            then option_map (cons ((((z - 240) * 64 + (b2z b - 128)) * 64 + (b2z c - 128)) * 64 + (b2z d - 128))) (py_decode false r) else None | _ => None end = Some u).
  { intros lo hi HZ HU -> -> LS. destruct (urun_cont _ _ _ _ HU) as (b & r1 & -> & B & R1). destruct (urun_cont _ _ _ _ R1) as (c & r2 & -> & C & R2). destruct (urun_cont _ _ _ _ R2) as (d & r & -> & D & R).
    rewrite (in_cont b _ _ B), (in_cont c 128 191), (in_cont d 128 191) by lia. cbn [andb List.length] in *. apply K; [lia|exact R]. }
  assert (T3 : forall lo hi, 224 <= z <= 239 -> urun (UC lo hi 1) s = Some U0 -> lo = (if z =? 224 then 160 else 128) -> hi = (if (z =? 237) && negb false then 159 else 191) ->
    exists u, match s with b :: c :: r =>
            if cont b (if z =? 224 then 160 else 128) (if (z =? 237) && negb false then 159 else 191) && cont c 128 191
            then option_map (cons (((z - 224) * 64 + (b2z b - 128)) * 64 + (b2z c - 128))) (py_decode false r) else None | _ => None end = Some u).
  { intros lo hi HZ HU -> ->. destruct (urun_cont _ _ _ _ HU) as (b & r1 & E & B & R1). apply (C3 true 128 191 HZ ltac:(congruence) b r1 E B); auto; lia. }
  clear IH. assert (LS : (List.length s <= n)%nat) by lia.
  destruct (Z.ltb_spec z 128) as [Z1|Z1].
  { apply K; [exact LS|]. destruct ((z =? 9) || (z =? 10) || (z =? 13) || (32 <=? z) && (z <=? 127)); [exact H|].
    repeat match type of H with context [if ?b then _ else _] => destruct b eqn:?; cbn [negb] in H end; try discriminate; exfalso; lia. }
  destruct ((z =? 9) || (z =? 10) || (z =? 13) || (32 <=? z) && (z <=? 127)) eqn:E0; [exfalso; lia|]. clear E0.
  destruct ((194 <=? z) && (z <=? 223)) eqn:E1; [apply (C2 128 191); auto; lia|].
  destruct ((224 <=? z) && (z <=? 239)) eqn:E2.
  { destruct (Z.eqb_spec z 224) as [Y|Y]; [apply (T3 160 191); auto; try lia; destruct (Z.eqb_spec z 237); try reflexivity; lia|].
    destruct (((225 <=? z) && (z <=? 236)) || (z =? 238)) eqn:E3; [apply (T3 128 191); auto; try lia; destruct (Z.eqb_spec z 237); try reflexivity; exfalso; lia|].
    destruct (Z.eqb_spec z 237) as [Y7|Y7]; [apply (T3 128 159); auto; lia|].
    destruct (Z.eqb_spec z 239) as [Y9|Y9]; [|exfalso; lia].
    destruct (urun_ef _ H) as (b & r & E & B & hi & HH & R). eapply (C3 true 128 hi); eauto; lia || congruence. }
  destruct (Z.eqb_spec z 224); [exfalso; lia|]. destruct (((225 <=? z) && (z <=? 236)) || (z =? 238)) eqn:E3; [exfalso; lia|].
  destruct (Z.eqb_spec z 237); [exfalso; lia|]. destruct (Z.eqb_spec z 239); [exfalso; lia|].
  destruct (Z.eqb_spec z 240) as [Y|Y].
  { replace ((240 <=? z) && (z <=? 244)) with true by lia. apply (C4 144 191); auto; try lia. destruct (Z.eqb_spec z 244); lia. }
  destruct ((241 <=? z) && (z <=? 243)) eqn:E4.
  { replace ((240 <=? z) && (z <=? 244)) with true by lia. apply (C4 128 191); auto; try lia. destruct (Z.eqb_spec z 244); lia. }
  destruct (Z.eqb_spec z 244) as [Y4|Y4]; [|discriminate]. replace ((240 <=? z) && (z <=? 244)) with true by lia. apply (C4 128 143); auto; lia.
Qed.
Lemma xml_is_text : forall s, xml_chars s -> is_text s.
Proof. intros s H. destruct (xml_decode (List.length s) s (le_n _) H) as [u E]. apply text_decode. eauto. Qed.
Lemma urun_no_nul : forall s u, urun u s = Some U0 -> match u with UC lo _ _ => 0 < lo | _ => True end -> ~ In x00 s.
Proof.
  induction s as [|c s IH]; intros u H HU; [intros []|]. cbn [urun] in H. destruct (ustep u c) as [u'|] eqn:E; [|discriminate]. intros [->|I].
  - destruct u as [|lo hi n|]; cbn [ustep] in E; unfold between in E; change (b2z x00) with 0 in E; cbn in E; try discriminate.
    destruct (Z.leb_spec lo 0); [lia|]. discriminate.
  - apply (IH u' H); [|exact I]. destruct u as [|lo hi n|]; cbn [ustep] in E;
      repeat match type of E with context [if ?b then _ else _] => destruct b end; try discriminate; inversion E; subst; try exact Logic.I; try lia. destruct n; [exact Logic.I|lia].
Qed.
Lemma xml_no_nul : forall s, xml_chars s -> ~ In x00 s.
Proof. intros s H. apply (urun_no_nul s U0 H I). Qed.

Section Values.
  Variable D : Z -> Prop.
  Lemma xml_texts : forall v, xml_wf D v -> texts v /\ no_nul_names v.
  Proof.
    fix F 1. intros [z|b| |d|s|s|s|n cs|d|m|l|x] W; cbn [xml_wf texts no_nul_names] in *; try (split; exact I).
    - split; [apply xml_is_text; apply W|exact I].
    - split; [apply xml_is_text; apply W|exact I].
    - destruct W as [_ W]. induction m as [|[k x] m IH]; [split; exact I|]. destruct W as [(_ & K & X) W]. destruct (IH W) as [I1 I2]. destruct (F x X) as [F1 F2].
      repeat split; auto; [apply xml_is_text; apply K|apply xml_no_nul; apply K].
    - destruct W as [_ W]. induction l as [|x l IH]; [split; exact I|]. destruct W as [X W]. destruct (IH W) as [I1 I2]. destruct (F x X) as [F1 F2]. repeat split; auto.
    - apply F. exact W.
  Qed.
End Values.

Lemma ordered_uniq : forall v, ordered v -> uniq v.
Proof.
  induction v using value_nested_ind; intro W; cbn [uniq]; try exact I; auto.
  - apply ordered_struct in W. destruct W as (I & F). split; [apply increasing_nodup, I|].
    rewrite (all_pairs (fun kv => uniq (snd kv))). rewrite Forall_forall in *. intros kv HI. apply H; auto.
  - apply ordered_array in W. rewrite all_values. rewrite Forall_forall in *. auto.
Qed.
Lemma plain_texts : forall f v, texts v -> texts (plain f v).
Proof.
  intros f. fix F 1. intros [z|b| |d|s|s|s|n cs|d|m|l|x] W; cbn [plain texts] in *; try exact I; try exact W.
  - induction m as [|[k x] m IH]; [exact I|]. destruct W as (A & B & C). cbn [map fst snd]. split; [exact A|]. split; [apply F; exact B|apply IH; exact C].
  - induction l as [|x l IH]; [exact I|]. destruct W as (A & B). cbn [map]. split; [apply F; exact A|apply IH; exact B].
  - apply F. exact W.
Qed.
Lemma plain_no_nul : forall f v, no_nul_names v -> no_nul_names (plain f v).
Proof.
  intros f. fix F 1. intros [z|b| |d|s|s|s|n cs|d|m|l|x] W; cbn [plain no_nul_names] in *; try exact I; try exact W.
  - induction m as [|[k x] m IH]; [exact I|]. destruct W as (A & B & C). cbn [map fst snd]. split; [exact A|]. split; [apply F; exact B|apply IH; exact C].
  - induction l as [|x l IH]; [exact I|]. destruct W as (A & B). cbn [map]. split; [apply F; exact A|apply IH; exact B].
  - apply F. exact W.
Qed.
Lemma plain_uniq : forall f v, uniq v -> uniq (plain f v).
Proof.
  intros f. fix F 1. intros [z|b| |d|s|s|s|n cs|d|m|l|x] W; cbn [plain uniq] in *; try exact I; try exact W.
  - destruct W as [N W]. split; [rewrite map_map; cbn [fst]; exact N|]. clear N. induction m as [|[k x] m IH]; [exact I|]. destruct W as (A & B). cbn [map fst snd]. split; [apply F; exact A|apply IH; exact B].
  - induction l as [|x l IH]; [exact I|]. destruct W as (A & B). cbn [map]. split; [apply F; exact A|apply IH; exact B].
  - apply F. exact W.
Qed.
Lemma flat_events_plain : forall f l, flat_map events (map (plain f) l) = map (dt_event f) (flat_map events l).
Proof. intros f. induction l as [|x l IH]; [reflexivity|]. cbn [map flat_map]. rewrite map_app, events_plain, IH. reflexivity. Qed.

Section Um.

  Variable host : datetime -> datetime.
  Variable pass native : bool.
  Notation step := (pb_step host pass native).
  Variable P : parser.
  Variable fin : Z -> bytes.
  Variable strtod : bytes -> option Z.
  Variable want : Z.
  Notation um := (pxml_um step P strtod false want).
  Notation exact := (double_exact fin strtod).

  Lemma pb_replay_xml : forall es t, replay step t (map xml_event es) = replay step t (map (dt_event iso_fields) es).
  Proof.
    induction es as [|e es IH]; intro t; [reflexivity|]. cbn [map replay].
    assert (E : step t (xml_event e) = step t (dt_event iso_fields e)) by (destruct e; reflexivity).
    rewrite E. destruct (step t (dt_event iso_fields e)) as [t1 [f|]]; auto.
  Qed.

  Lemma pum_pieces : forall pieces p u t batches p', reports P p pieces batches p' ->
    forall u' t', x_unmarshall_all step strtod false want u t (combine pieces batches) = (u', t', None) ->
    hand_over (pu_take um) (p, u, t) pieces = ((p', u', t'), None).
  Proof.
    intros pieces p u t batches p' HR. revert u t. induction HR as [p|p d p1 batch pieces batches p2 HT HR IH]; intros u t u' t' H.
    - cbn in *. inversion H; subst. reflexivity.
    - cbn [combine x_unmarshall_all] in H. cbn [hand_over pu_take pxml_um]. rewrite HT.
      destruct (x_unmarshall step strtod false want u t d batch 0) as [[u1 t1] [f|]]; [discriminate|]. apply IH. exact H.
  Qed.
  Lemma pum_received : forall text doc, faithful P -> xml_doc text = Some doc -> forall pieces, arrives text pieces ->
    exists xpieces last s, map fst xpieces = pieces /\ delivery text xpieces last /\
      forall u t, x_receive step strtod false want pb_init xpieces last = (u, t, None) ->
      hand_over (pu_take um) (pu_init um) pieces = (s, None) /\ exists p, pu_finish um s = ((p, u, t), Ok tt).
  Proof.
    intros text doc HF HD pieces HA. destruct (HF _ _ _ HD HA) as (batches & s & s' & last & HR & HT & HDE).
    destruct (x_unmarshall_all step strtod false want xun_init pb_init (combine pieces batches)) as [[u1 t1] f1] eqn:E.
    exists (combine pieces batches), last, (s, u1, t1). split; [|split; [exact HDE|]].
    - clear - HR. induction HR; cbn; congruence.
    - intros u t H. unfold x_receive in H. rewrite E in H. destruct f1; [discriminate|].
      split; [exact (pum_pieces _ _ _ _ _ _ HR _ _ E)|]. exists s'. cbn [pu_finish pxml_um]. rewrite HT, H. reflexivity.
  Qed.

  (** What the builder makes of the calls of an XML message. *)
  Lemma xml_object : forall v, xml_wf exact v -> uniq v -> exists p m, S_Python.reads host native (plain iso_fields v) p /\
    replay step pb_init (map xml_event (events v)) = (pb_set m (mkPB [] (P_done p) false false [] None), None).
  Proof.
    intros v W U. destruct (xml_texts _ v W) as [T N].
    destruct (texts_read host native pass (plain iso_fields v) (plain_texts _ _ T) (plain_uniq _ _ U) (plain_no_nul _ _ N)) as (p & E & R).
    pose proof (builds_all host pass native (plain iso_fields v) pb_init L_root eq_refl eq_refl) as Q. rewrite E in Q. cbn [option_map done_to] in Q. destruct Q as [m Q].
    exists p, m. split; [exact R|]. rewrite pb_replay_xml, <- events_plain. exact Q.
  Qed.
  Lemma xml_parameters : forall l name, Forall (xml_wf exact) l -> Forall uniq l -> exists ps m, Forall2 (S_Python.reads host native) (map (plain iso_fields) l) ps /\
    replay step (fst (step pb_init (EMethodCall name))) (map xml_event (flat_map events l)) = (pb_set m (mkPB [(L_root, PB_list ps)] P_open false false [] (Some name)), None).
  Proof.
    intros l name W U.
    assert (X : exists ps, items_of host pass native (map (plain iso_fields) l) = Some ps /\ Forall2 (S_Python.reads host native) (map (plain iso_fields) l) ps).
    { induction l as [|v l IH]; [exists []; split; [reflexivity|constructor]|]. inversion W; inversion U; subst. destruct (xml_texts _ v H1) as [T N].
      destruct (texts_read host native pass (plain iso_fields v) (plain_texts _ _ T) (plain_uniq _ _ H5) (plain_no_nul _ _ N)) as (p & E & R).
      destruct IH as (ps & EL & RL); auto. exists (p :: ps). cbn [map items_of]. rewrite E, EL. split; [reflexivity|constructor; auto]. }
    destruct X as (ps & E & R).
    assert (F : Forall (builds_py host pass native) (map (plain iso_fields) l)) by (apply Forall_forall; intros; apply L_PyBuild.builds_all).
    pose proof (L_PyBuild.builds_items host pass native _ F (fst (step pb_init (EMethodCall name))) L_root [] [] eq_refl eq_refl) as Q. rewrite E in Q. cbn [option_map done_to] in Q. destruct Q as [m Q].
    exists ps, m. split; [exact R|]. rewrite pb_replay_xml, <- flat_events_plain. exact Q.
  Qed.
End Um.
