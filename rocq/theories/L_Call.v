(** The binary unmarshaller with its builder, fed with a whole call. *)
From Coq Require Import Lia.
From Verif Require Import Base Value M_Marshal M_BinUnmarshal M_TreeBuilder M_Registry S_Value S_Wire L_Base
  L_BinUnmarshal L_RoundTrip L_TreeBuilder L_Message L_Wire.

Lemma bin_um_all val req : forall pieces u t,
  um_all (bin_um val req) (u, t) pieces =
  let '(u', t', f) := unmarshall_all tb (tb_step val) req u t pieces in ((u', t'), f).
Proof.
  induction pieces as [|p r IH]; intros u t; [reflexivity|].
  cbn [um_all um_take bin_um unmarshall_all fst snd]. destruct (unmarshall tb (tb_step val) req u t p) as [[u' t'] [f|]]; [reflexivity|]. apply IH.
Qed.

Lemma call_decoded : forall val req ver name ps, modern ver -> 1 <= blen name <= 255 -> Forall (wf ver) ps -> accepts req T_METHOD_CALL ->
  exists wire, sent ver (call_calls name ps) = Ok wire /\
  forall pieces, concat pieces = wire ->
    exists u t, unmarshall_all tb (tb_step val) req unm_init tb_init pieces = (u, t, None) /\ unm_finish u = Ok tt /\ c_ver (u_core u) = ver
      /\ tb_data t = Ok (VArray (map (plain (make_datetime val)) ps)) /\ tb_method t = name.
Proof.
  intros val req ver name ps HM LN W HA. pose proof (modern_legal ver HM) as HL.
  assert (FB : Forall (builds val) ps).
  { rewrite Forall_forall in *. intros x H. apply (builds_all val ver). auto. }
  destruct (builds_items1 val ps (fst (tb_step val tb_init (EMethodCall name))) [] [] FB eq_refl) as [m ER].
  destruct (call_decodes tb (tb_step val) req ver HL HM name ps tb_init _ _ [] LN W HA eq_refl ER) as [Q1 Q2].
  unfold sent. destruct (bin_run ver (call_calls name ps)) as [o f]. cbn [fst snd] in *. subst f.
  exists o. split; [reflexivity|]. intros pieces EC.
  do 2 eexists. split; [eapply all_of_lbig; [exact EC| |exact Q2]; apply idle_cinv; lia|]. repeat split; reflexivity.
Qed.

Lemma bin_um_call : forall val ver name ps, modern ver -> 1 <= blen name <= 255 -> Forall (wf ver) ps ->
  exists wire, sent ver (call_calls name ps) = Ok wire /\
  forall pieces, concat pieces = wire ->
    exists s, um_all (bin_um val T_METHOD_CALL) (um_init (bin_um val T_METHOD_CALL)) pieces = (s, None) /\ snd (um_finish (bin_um val T_METHOD_CALL) s) = Ok tt
      /\ um_version (bin_um val T_METHOD_CALL) s = ver /\ fst (um_finish (bin_um val T_METHOD_CALL) s) = s
      /\ tb_data (um_builder (bin_um val T_METHOD_CALL) s) = Ok (VArray (map (plain (make_datetime val)) ps)) /\ tb_method (um_builder (bin_um val T_METHOD_CALL) s) = name.
Proof.
  intros val ver name ps HM LN W. destruct (call_decoded val T_METHOD_CALL ver name ps HM LN W) as (wire & HS & HR); [right; left; reflexivity|].
  exists wire. split; [assumption|]. intros pieces HC. destruct (HR pieces HC) as (u & t & H1 & H2 & H3 & H4 & H5).
  exists (u, t). change (um_init (bin_um val T_METHOD_CALL)) with (unm_init, tb_init). rewrite bin_um_all, H1. repeat split; assumption.
Qed.
