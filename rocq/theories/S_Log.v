(** What a user may expect of the logging of calls. *)
From Verif Require Import Base Value Text M_Values M_Log.

(** A call that makes several calls. *)
Definition structured (name : bytes) : Prop := name = str "system.multicall" \/ name = str "system.parallelcall".
(** The calls in the parameters, and their results. *)
Definition sub_calls (params : option (list value)) (calls : list value) : Prop := exists rest, params = Some (VArray calls :: rest).

(** A struct describing a call has parameters; they are an array. *)
Definition has_params (v : value) : Prop := forall m, v = VStruct m -> struct_get (str "params") m <> None.
Definition good_call (v : value) : Prop := forall m, v = VStruct m -> exists ps, struct_get (str "params") m = Some (VArray ps).
(** A struct that looks like a fault is one. *)
Definition good_result (v : value) : Prop := forall m c, v = VStruct m -> struct_get (str "faultCode") m = Some c ->
  (exists z, c = VInt z) /\ (struct_get (str "faultString") m = None \/ exists s, struct_get (str "faultString") m = Some (VString s)).

(** What must be logged for a call at its end. *)
Definition end_event (name : bytes) (params : option (list value)) (x : res (option value)) (e : log_event) : Prop :=
  match x with
  | Ok v => e = Log_success (Some name) params v
  | Err (FaultExn code msg) => e = Log_fault (Some name) params code msg
  | Err _ => e = Log_error name params
  | UB => False
  end.
(** What must be logged for the calls within a call: one event for every call given by a struct whose result is a
    struct, in order. *)
Definition entry_event (m rm : members) (e : log_event) : Prop :=
  exists name ps, struct_get (str "params") m = Some (VArray ps) /\
    (forall s, ~ In x00 s -> struct_get (str "methodName") m = Some (VString s) -> name = Some s) /\
    ((struct_get (str "faultCode") rm = None /\ e = Log_success name (Some ps) (Some (VStruct rm))) \/
     (exists z msg, struct_get (str "faultCode") rm = Some (VInt z) /\ (in_s32 z -> e = Log_fault name (Some ps) z msg) /\
        (forall s, struct_get (str "faultString") rm = Some (VString s) -> msg = s))).
Inductive entries_logged : list value -> list value -> list log_event -> Prop :=
| logged_end1 : forall rs, entries_logged [] rs []
| logged_end2 : forall cs, entries_logged cs [] []
| logged_call : forall m rm e cs rs es, entry_event m rm e -> entries_logged cs rs es -> entries_logged (VStruct m :: cs) (VStruct rm :: rs) (e :: es)
| logged_other : forall c r cs rs es, (forall m rm, ~ (c = VStruct m /\ r = VStruct rm)) -> entries_logged cs rs es ->
    entries_logged (c :: cs) (r :: rs) es.
