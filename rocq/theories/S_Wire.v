(** Sending and receiving whole binary messages, as a client or a server does. *)
From Verif Require Import Base Value M_Marshal M_BinUnmarshal M_TreeBuilder.

(** The bytes a fresh binary marshaller of version [ver] hands to the writer for a sequence of calls,
    or the exception the sequence ends with. *)
Definition sent (ver : version) (cs : list mcall) : res bytes :=
  match bin_run ver cs with
  | (o, None) => Ok o
  | (_, Some (Exn e)) => Err e
  | (_, Some Undef) => UB
  end.

(** The receiver asks for a message of type [req]; a message of type [ty] is welcome when any type or
    this type was asked for, and a fault is also welcome where a response was asked for. *)
Definition accepts (req ty : Z) : Prop :=
  req = TYPE_ANY \/ req = ty \/ (ty = T_FAULT /\ req = T_METHOD_RESPONSE).

(** A fresh unmarshaller and a fresh tree builder get the pieces one after another, then
    [finish()] is called. *)
Definition received (val : option mktime_t) (req : Z) (pieces : list bytes) : res tb :=
  match unmarshall_all tb (tb_step val) req unm_init tb_init pieces with
  | (u, t, None) => bind (unm_finish u) (fun _ => Ok t)
  | (_, _, Some (Exn e)) => Err e
  | (_, _, Some Undef) => UB
  end.

(** The value [getUnMarshaledData] returns afterwards. *)
Definition received_value val req pieces : res value := bind (received val req pieces) tb_data.

(** The method name and the parameters of a received call. *)
Definition received_call val req pieces : res (bytes * value) :=
  bind (received val req pieces) (fun t => bind (tb_data t) (fun v => Ok (tb_method t, v))).

(** Names the format can carry. *)
Definition name_ok (k : bytes) : Prop := 1 <= blen k <= 255.

(** Is version [v] at least [maj.min]? *)
Definition at_least (maj min : Z) (v : version) : Prop :=
  maj < v_major v \/ (maj = v_major v /\ min <= v_minor v).

(** Values the marshaller of version [ver] writes without an exception: nulls only from 2.1 on, member
    names of 1 to 255 bytes (and, before version 3, no date-time at the smallest [time_t], which is
    negated there). *)
Fixpoint sendable (ver : version) (v : value) : Prop :=
  match v with
  | VNull => at_least 2 1 ver
  | VDateTime d => v_major ver < 3 -> dt_unix d <> - 2 ^ 63
  | VStruct m =>
      (fix all (l : list (bytes * value)) : Prop :=
         match l with [] => True | (k, x) :: r => name_ok k /\ sendable ver x /\ all r end) m
  | VArray l =>
      (fix all (l : list value) : Prop :=
         match l with [] => True | x :: r => sendable ver x /\ all r end) l
  | VSecret x => sendable ver x
  | _ => True
  end.

(** [k] payload bytes can carry [z]: as a magnitude with a sign in version 2, as a zigzag number in
    version 3. *)
Definition fits (ver : version) (z k : Z) : Prop :=
  if v_major ver =? 3 then - 256 ^ k <= 2 * z < 256 ^ k else Z.abs z < 256 ^ k.

(** The last value a list of pairs gives to a name. *)
Definition last_value {A} (k : bytes) (l : list (bytes * A)) : option A :=
  match find (fun kv => bytes_eqb k (fst kv)) (rev l) with
  | Some kv => Some (snd kv)
  | None => None
  end.
