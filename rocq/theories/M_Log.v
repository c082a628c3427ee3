(** Model of the logging of calls: [logStructuredCalls], [callLoggerCallback] (src/frpc.cc 629-716) and [with_logger]
    (src/frpcserverproxy.cc 587-624).  URL and response headers are left out of the events; the logger function of the user
    is expected not to throw. *)
From Verif Require Import Base Value Text M_Values M_Url M_Registry M_Proxy.

(** LogEvent_t and LogEventData_t (frpclogging.h 37-76); [None] is a null pointer. *)
Inductive log_event : Type :=
| Log_start (name : bytes) (params : option (list value))
| Log_success (name : option bytes) (params : option (list value)) (response : option value)
| Log_fault (name : option bytes) (params : option (list value)) (code : Z) (msg : bytes)
| Log_error (name : bytes) (params : option (list value)).

(** One call of a structured call with its response (frpc.cc 661-702).  The iterator for "params" is dereferenced when it is
    [end()], and whatever is found must be an array. *)
Definition log_entry (m rm : members) (response : value) : res log_event :=
  let name := match struct_get (str "methodName") m with Some (VString s) => Some (c_str s) | _ => None end in
  match struct_get (str "params") m with
  | None => UB
  | Some v =>
      bind (as_array v) (fun ps =>
        match struct_get (str "faultCode") rm with
        | Some c =>
            bind (as_int c) (fun z =>
            bind (as_string (struct_get_default (str "faultString") (VString []) rm)) (fun msg =>
            Ok (Log_fault name (Some ps) (s32 z) msg)))
        | None => Ok (Log_success name (Some ps) (Some response))
        end)
  end.

(** The loop (frpc.cc 652-703): what was logged, and how it ended. *)
Fixpoint log_calls (calls responses : list value) : list log_event * res unit :=
  match calls, responses with
  | c :: cs, r :: rs =>
      match c, r with
      | VStruct m, VStruct rm =>
          match log_entry m rm r with
          | Ok e => let '(es, x) := log_calls cs rs in (e :: es, x)
          | Err e => ([], Err e)
          | UB => ([], UB)
          end
      | _, _ => log_calls cs rs
      end
  | _, _ => ([], Ok tt)
  end.

(** [logStructuredCalls] (frpc.cc 629-704). *)
Definition structured_name (name : bytes) : bool := bytes_eqb name (str "system.multicall") || bytes_eqb name (str "system.parallelcall").
Definition log_structured (name : bytes) (params : option (list value)) (response : option value) : list log_event * res unit :=
  if structured_name name then
    match params, response with
    | Some (VArray calls :: _), Some (VArray responses) => log_calls calls responses
    | _, _ => ([], Ok tt)
    end
  else ([], Ok tt).

(** [with_logger] (frpcserverproxy.cc 587-624): what is logged and what the caller gets.  [x]: what the call itself gives ([None]: it
    returns no value but fills a builder). *)
Definition with_logger (name : bytes) (params : option (list value)) (x : res (option value)) : list log_event * res (option value) :=
  let start := Log_start name params in
  match x with
  | UB => ([start], UB)
  | Err (FaultExn code msg) => ([start; Log_fault (Some name) params code msg], x)
  | Err _ => ([start; Log_error name params], x)
  | Ok v =>
      let '(es, y) := log_structured name params v in
      match y with
      | Ok tt => (start :: es ++ [Log_success (Some name) params v], x)
      | Err e => (start :: es, Err e)
      | UB => (start :: es, UB)
      end
  end.
