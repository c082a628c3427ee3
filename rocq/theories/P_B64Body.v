(** Requests in base64 (C52, C87), whole and cut (C43). *)
From Coq Require Import Lia.
From Verif Require Import Base Value Text Unicode M_Marshal M_BinUnmarshal M_TreeBuilder M_Base64 M_Url M_Http M_HttpIO M_Registry M_Server M_Python M_PyRegistry M_PyServer
  S_Value S_Wire S_Http S_Base64 S_Registry S_Server S_Python S_PyRegistry S_PyServer L_Base L_BinUnmarshal L_RoundTrip L_TreeBuilder L_Message L_Base64 L_Wire L_Http L_HttpIO
  L_PyText L_PyBuild L_PyRead L_Python L_CutCall L_Server L_EndToEnd P_Base64 P_Python P_PyServer P_CutBody.

(** A consumer behind the decoder. *)
Section Decoder.
  Context {K : Type}.
  Variable take : K -> bytes -> K * option fail.
  Definition behind (s : bytes * K) (d : bytes) : (bytes * K) * option fail :=
    let '(o, q) := b64_process (fst s) d in
    match o with
    | [] => ((q, snd s), None)
    | _ => let '(k, f) := take (snd s) o in ((q, k), f)
    end.
  Lemma behind_outputs : forall pieces q k, exists q',
    hand_over behind (q, k) pieces = let '(k', f) := hand_over take k (b64_outputs q pieces) in ((q', k'), f).
  Proof.
    induction pieces as [|d r IH]; intros q k; [exists q; reflexivity|].
    cbn [hand_over b64_outputs]. unfold behind at 1. cbn [fst snd]. destruct (b64_process q d) as [[|c o] q1].
    - apply IH.
    - cbn [hand_over]. destruct (take k (c :: o)) as [k1 [f|]]; [exists q1; reflexivity|]. apply IH.
  Qed.
End Decoder.
Lemma outputs_arrive : forall pieces q, Forall (fun d : bytes => d <> []) (b64_outputs q pieces).
Proof.
  induction pieces as [|d r IH]; intro q; [constructor|]. cbn [b64_outputs]. destruct (b64_process q d) as [[|c o] q1]; [apply IH|].
  constructor; [discriminate|apply IH].
Qed.
Lemma decoded : forall text data pieces, squeeze text = rfc4648 data -> arrives text pieces -> arrives data (b64_outputs [] pieces).
Proof.
  intros text data pieces E [EC _]. split; [|apply outputs_arrive]. rewrite b64_outputs_concat. apply C26_encodings. rewrite EC. exact E.
Qed.

(** What holds of the binary format holds of any text that encodes it. *)
Lemma b64_decodes : forall val req text data ver name ps, squeeze text = rfc4648 data ->
  S_Server.decodes (bin_um val req) data ver name ps -> S_Server.decodes (b64_um val req) text ver name ps.
Proof.
  intros val req text data ver name ps E D pieces A. destruct (D _ (decoded _ _ _ E A)) as (s & s' & H1 & H2 & H3 & H4 & H5).
  destruct (behind_outputs (um_take (bin_um val req)) pieces [] (um_init (bin_um val req))) as (q & H).
  rewrite hand_over_um, H1 in H. exists (q, s), (q, s'). split; [|split; [|auto]].
  - rewrite <- hand_over_um. exact H.
  - cbn [um_finish b64_um snd fst]. rewrite H2. reflexivity.
Qed.
Lemma b64_incomplete : forall val req text data e, squeeze text = rfc4648 data -> incomplete (bin_um val req) data e -> incomplete (b64_um val req) text e.
Proof.
  intros val req text data e E D pieces A. destruct (D _ (decoded _ _ _ E A)) as (s & s' & H1 & H2).
  destruct (behind_outputs (um_take (bin_um val req)) pieces [] (um_init (bin_um val req))) as (q & H).
  rewrite hand_over_um, H1 in H. exists (q, s), (q, s'). split.
  - rewrite <- hand_over_um. exact H.
  - cbn [um_finish b64_um snd fst]. rewrite H2. reflexivity.
Qed.
Lemma pb64_decodes : forall step req text data ver name ps, squeeze text = rfc4648 data ->
  py_decodes (pbin_um step req) data ver name ps -> py_decodes (pb64_um step req) text ver name ps.
Proof.
  intros step req text data ver name ps E D pieces A. destruct (D _ (decoded _ _ _ E A)) as (s & s' & H1 & H2 & H3 & H4 & H5).
  destruct (behind_outputs (pu_take (pbin_um step req)) pieces [] (pu_init (pbin_um step req))) as (q & H).
  rewrite H1 in H. exists (q, s), (q, s'). split; [exact H|split; [|auto]].
  cbn [pu_finish pb64_um snd fst]. rewrite H2. reflexivity.
Qed.
(** The unmarshaller of the Python server takes the body and finds at its end that something is missing. *)
Definition py_incomplete (u : pyum) (body : bytes) (e : exn) : Prop :=
  forall pieces, arrives body pieces -> exists s s', hand_over (pu_take u) (pu_init u) pieces = (s, None) /\ pu_finish u s = (s', Err e).
Lemma pb64_incomplete : forall step req text data e, squeeze text = rfc4648 data ->
  py_incomplete (pbin_um step req) data e -> py_incomplete (pb64_um step req) text e.
Proof.
  intros step req text data e E D pieces A. destruct (D _ (decoded _ _ _ E A)) as (s & s' & H1 & H2).
  destruct (behind_outputs (pu_take (pbin_um step req)) pieces [] (pu_init (pbin_um step req))) as (q & H).
  rewrite H1 in H. exists (q, s), (q, s'). split; [exact H|].
  cbn [pu_finish pb64_um snd fst]. rewrite H2. reflexivity.
Qed.

(** C52: a body that encodes a call in base64 (RFC 4648), with blanks anywhere, is read as that call. *)
Theorem C52_base64_calls : forall val ver name ps, modern ver -> S_Wire.name_ok name -> Forall (wf ver) ps ->
  exists data, sent ver (call_calls name ps) = Ok data /\
  forall text, squeeze text = rfc4648 data -> S_Server.decodes (b64_um val T_METHOD_CALL) text ver name (map (plain (make_datetime val)) ps).
Proof.
  intros val ver name ps HM HN W. destruct (call_decodes_to val ver name ps HM HN W) as (data & HS & D).
  exists data. split; [exact HS|]. intros text E. exact (b64_decodes _ _ _ _ _ _ _ E D).
Qed.
Theorem C87_base64_calls : forall host pass native ver name ps, modern ver -> S_Wire.name_ok name ->
  Forall (wf ver) ps -> Forall texts ps -> Forall no_nul_names ps ->
  exists data l, sent ver (call_calls name ps) = Ok data /\ Forall2 (reads host native) ps l /\
  forall text, squeeze text = rfc4648 data -> py_decodes (pb64_um (pb_step host pass native) T_METHOD_CALL) text ver name l.
Proof.
  intros host pass native ver name ps HM NO W T N. destruct (C87_binary_calls host pass native ver name ps HM NO W T N) as (data & l & HS & D & R).
  exists data, l. split; [exact HS|]. split; [exact R|]. intros text E. exact (pb64_decodes _ _ _ _ _ _ _ E D).
Qed.
(** C43: the beginning of a call, in base64. *)
Theorem C43_base64_partial : forall val ver name ps part text, modern ver -> S_Wire.name_ok name -> Forall (wf ver) ps -> beginning ver name ps part ->
  squeeze text = rfc4648 part -> incomplete (b64_um val T_METHOD_CALL) text (StreamError "Stream not complete").
Proof.
  intros val ver name ps part text HM NO W HB E. exact (b64_incomplete _ _ _ _ _ E (C43_inside_partial val ver name ps part HM NO W HB)).
Qed.
(** C87: the beginning of a call, as the Python server reads it. *)
Theorem C87_cut_calls : forall host pass native ver name ps part, modern ver -> S_Wire.name_ok name -> Forall (wf ver) ps -> Forall texts ps -> Forall no_nul_names ps ->
  beginning ver name ps part ->
  py_incomplete (pbin_um (pb_step host pass native) T_METHOD_CALL) part (StreamError "Stream not complete") /\
  forall text, squeeze text = rfc4648 part -> py_incomplete (pb64_um (pb_step host pass native) T_METHOD_CALL) text (StreamError "Stream not complete").
Proof.
  intros host pass native ver name ps part HM NO W T N [[lost HS] HK].
  assert (P : py_incomplete (pbin_um (pb_step host pass native) T_METHOD_CALL) part (StreamError "Stream not complete")).
  2: { split; [exact P|]. intros text E. exact (pb64_incomplete _ _ _ _ _ E P). }
  intros pieces [EC _].
  assert (X : exists l, items_of host pass native ps = Some l).
  { clear HS HK. induction ps as [|x ps IH]; [exists []; reflexivity|]. inversion W; inversion T; inversion N; subst.
    destruct (texts_read host native pass x) as (p & E & R); auto; [eapply wf_uniq; eauto|]. destruct IH as (l & EL); auto. exists (p :: l). cbn [items_of]. rewrite E, EL. reflexivity. }
  destruct X as (l & EP).
  set (b0 := fst (pb_step host pass native pb_init (EMethodCall name))).
  assert (F : Forall (builds_py host pass native) ps) by (apply Forall_forall; intros; apply L_PyBuild.builds_all).
  pose proof (L_PyBuild.builds_items host pass native ps F b0 L_root [] [] eq_refl eq_refl) as D. rewrite EP in D. cbn [option_map done_to] in D. destruct D as [m D].
  destruct (call_incomplete pb (pb_step host pass native) T_METHOD_CALL ver HM name ps pb_init b0 _ part lost pieces NO
    ltac:(eapply Forall_impl; [|exact W]; apply wf_wfu) (or_intror (or_introl eq_refl)) eq_refl D HS HK EC) as (u & t & E & Fi).
  exists (u, t), (u, t). split.
  - cbn [pbin_um pu_init]. rewrite hand_over_bin, E. reflexivity.
  - cbn [pu_finish pbin_um fst]. rewrite Fi. reflexivity.
Qed.
Print Assumptions C52_base64_calls.
Print Assumptions C87_base64_calls.
Print Assumptions C43_base64_partial.
Print Assumptions C87_cut_calls.

(** Hypotheses met: the call and the beginning of a call of P_CutBody.v, in base64 with a line break. *)
Definition half_text : bytes := ztake 7 (rfc4648 half) ++ [x0d; x0a] ++ zdrop 7 (rfc4648 half).
Example C43_base64_sample : squeeze half_text = rfc4648 half /\ beginning (mkVer 2 1) (str "echo") [VInt 1; VInt 300] half /\
  Forall texts [VInt 1; VInt 300] /\ Forall no_nul_names [VInt 1; VInt 300].
Proof. split; [vm_compute; reflexivity|]. split; [exact (proj1 C43_body_sample)|]. split; repeat constructor. Qed.
