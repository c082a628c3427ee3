(** Calls from a client to a server, as the caller sees them. *)
From Verif Require Import Base Value Text M_Marshal M_TreeBuilder M_Base64 M_Json M_Xml M_Url M_Http M_HttpIO M_HttpWriter M_Registry M_Server M_Client
  S_Value S_Wire S_Http S_Xml S_Registry S_Server S_Client.

Section Executed.
  Context {W : Type}.
  Variable message : exn -> bytes.
  Variable val : option mktime_t.
  Variable g : registry (W:=W).
  (** The values, the texts (names, fault messages) and the messages that the formats in use carry. *)
  Variable carried : value -> Prop.
  Variable legible : bytes -> Prop.
  Variable fits : list mcall -> Prop.

  (** What the caller gets for the outcome of a method: the value, or the documented fault. *)
  Inductive caller_gets : res value -> res value -> Prop :=
  | gets_value : forall v, carried v -> fits (response_calls v) -> caller_gets (Ok v) (Ok (plain (make_datetime val) v))
  | gets_fault : forall e code msg, documented message e code msg -> no_nul msg -> msg <> [] -> small (blen msg) -> in_s32 code ->
      legible msg -> fits [PFault code msg] -> caller_gets (Err e) (Err (FaultExn code msg)).

  (** Calls executed one after another, each once, with the parameters of the caller; what the caller gets for each. *)
  Inductive executed : W -> list (bytes * list value) -> W -> list (res value) -> Prop :=
  | executed_nil : forall w, executed w [] w []
  | executed_call : forall w name params w1 x y calls w2 ys,
      name_ok name -> no_nul name -> legible name -> Forall carried params -> fits (call_calls name params) ->
      call_yields message g w name (map (plain (make_datetime val)) params) w1 x -> caller_gets x y ->
      executed w1 calls w2 ys -> executed w ((name, params) :: calls) w2 (y :: ys).
End Executed.

(** The binary format: any text; messages below 4 GiB. *)
Definition binary_text (s : bytes) : Prop := True.
Definition binary_fits (ver : version) (cs : list mcall) : Prop := forall wire, sent ver cs = Ok wire -> zlen wire < 2 ^ 32.
(** Both formats: [fin] prints finite doubles, [strtod] reads them. *)
Definition both_carry (fin : Z -> bytes) (strtod : bytes -> option Z) (v : value) : Prop :=
  wf (mkVer 2 1) v /\ xml_wf (double_exact fin strtod) v /\ ordered v.
Definition both_fit (fin : Z -> bytes) (cs : list mcall) : Prop :=
  binary_fits (mkVer 2 1) cs /\ forall text, xml_output fin (mkVer 2 1) cs = Ok text -> zlen text < 2 ^ 32.

(** A network that connects and takes at least a byte in every round, for at least [rounds] rounds for each of at least
    [rounds] pieces. *)
Definition patient (rounds : nat) (n : net) : Prop :=
  n_connect n = true /\ (rounds <= List.length (n_tries n))%nat /\
  Forall (fun ts => (rounds <= List.length ts)%nat /\ Forall (fun t => exists k, t = Try_ready false (Some k) false /\ 1 <= k) ts) (n_tries n).
Definition make_calls (nets : list net) (calls : list (bytes * list value)) : list deed :=
  map (fun nc => Do_call (fst nc) (fst (snd nc)) (snd (snd nc))) (combine nets calls).
