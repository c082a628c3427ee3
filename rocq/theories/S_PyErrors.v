(** Specification: the error objects of the Python binding. *)
From Verif Require Import Base Value Text M_Python M_PyRegistry M_Netcat M_PyErrors.

(** Arguments that make an error of a class: (the number,) the message, the method if there is one. *)
Inductive arguments : ekind -> list eobject -> option eobject -> eobject -> option eobject -> Prop :=
| args_fault : forall c m, arguments K_Fault [c; m] (Some c) m None
| args_fault_method : forall c m r, arguments K_Fault [c; m; r] (Some c) m (Some r)
| args_protocol : forall c m, arguments K_ProtocolError [c; m] (Some c) m None
| args_protocol_method : forall c m r, arguments K_ProtocolError [c; m; r] (Some c) m (Some r)
| args_response : forall m, arguments K_ResponseError [m] None m None
| args_response_method : forall m r, arguments K_ResponseError [m; r] None m (Some r).

(** The text of an error of which no method is known. *)
Definition plain_text (k : ekind) (code : Z) (message : pystr) : pystr :=
  match k with
  | K_Fault => ustr "<fastrpc.Fault: " ++ udec code ++ ustr ", " ++ message ++ ustr ">"
  | K_ProtocolError => ustr "<fastrpc.ProtocolError: " ++ udec code ++ ustr ", " ++ message ++ ustr ">"
  | K_ResponseError => ustr "<fastrpc.ResponseError: " ++ message ++ ustr ">"
  end.
Definition method_note (name url : pystr) : pystr := ustr " [method " ++ name ++ ustr "() @ " ++ url ++ ustr "]".

(** Everything a program may put into the method: None or a method. *)
Definition method_or_none (o : eobject) : Prop := match o with E_none | E_method _ _ _ => True | _ => False end.
Definition careful (k : ekind) (d : eaction) : Prop :=
  match d with
  | Do_init _ args => forall c m r, arguments k args c m (Some r) -> method_or_none r
  | Do_set A_method v => method_or_none v
  | _ => True
  end.

(** References: what the object takes and gives back until it is gone. *)
Definition same_object (a b : eobject) : {a = b} + {a <> b}.
Proof. decide equality; try apply Z.eq_dec; try apply Bool.bool_dec; apply list_eq_dec; try apply Z.eq_dec; apply Byte.byte_eq_dec. Defined.
Definition references (l : list eobject) (x : eobject) : Z := Z.of_nat (count_occ same_object l x).
Definition lifetime (k : ekind) (l : list eaction) : eobj := e_dealloc k (e_run k l).
Definition kept (k : ekind) (l : list eaction) (x : eobject) : Z := references (e_taken (lifetime k l)) x - references (e_given (lifetime k l)) x.

Definition right_count (k : ekind) (args : list eobject) : bool :=
  match k, args with
  | K_ResponseError, [_] | K_ResponseError, [_; _] | K_Fault, [_; _] | K_Fault, [_; _; _] | K_ProtocolError, [_; _] | K_ProtocolError, [_; _; _] => true
  | _, _ => false
  end.
(** Initialisations: with the right number of arguments, with a wrong number, both without arguments by name. *)
Definition good_init (k : ekind) (d : eaction) : bool := match d with Do_init false args => right_count k args | _ => false end.
Definition bad_init (k : ekind) (d : eaction) : bool := match d with Do_init false args => negb (right_count k args) | _ => false end.

(** The values of the attributes an initialisation replaces, over a history. *)
Definition replaced_by (k : ekind) (o : eobj) (d : eaction) : list eobject :=
  if good_init k d then (if has_code k then pointer (e_code o) else []) ++ pointer (e_message o) ++ pointer (e_method o)
  else if bad_init k d then pointer (e_method o) else [].
Fixpoint overwritten (k : ekind) (o : eobj) (l : list eaction) : list eobject :=
  match l with [] => [] | d :: r => replaced_by k o d ++ overwritten k (e_act k o d) r end.
Definition bad_inits (k : ekind) (l : list eaction) : Z := Z.of_nat (length (filter (bad_init k) l)).
