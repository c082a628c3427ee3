(** Model of the error objects of the Python binding: [fastrpc.Fault], [fastrpc.ProtocolError] and [fastrpc.ResponseError]
    (python/pyerrors.cc) and their texts ([errorRepr], python/fastrpcmodule.cc 2834-2900), for Python 3.  Every pointer kept in the
    object is modelled, and every reference taken and given back for these pointers.  Not modelled: running out of memory, the garbage
    collector, the [args] and [__dict__] of the base class, classes derived from these; "s#" is taken to read the length it is given
    (PY_SSIZE_T_CLEAN is not defined, which Python 3.10 and later refuse with SystemError). *)
From Verif Require Import Base Value Text M_Python M_PyRegistry M_Netcat.

(** A Python object given to these functions: its identity ([id()]) and what it is.  [E_bool] to [E_str] are objects of exactly
    these types, [E_method] is a [fastrpc.Method] with its name and the URL of its server, [E_other] any other, with whether Python
    takes it for a number ([PyNumber_Check]) and for a string ([PyUnicode_Check]: a class derived from str). *)
Inductive eobject : Type :=
| E_none
| E_int (id z : Z)
| E_str (id : Z) (s : pystr)
| E_method (id : Z) (name url : bytes)
| E_other (id : Z) (number string : bool).

Definition is_number (o : eobject) : bool := match o with E_int _ _ => true | E_other _ n _ => n | _ => false end.
Definition is_string (o : eobject) : bool := match o with E_str _ _ => true | E_other _ _ s => s | _ => false end.

(** What Python makes of other objects: [int(o)] for "%d" and [str(o)] for "%s", each a result or an exception. *)
Definition int_of (other : Z -> pyres Z) (o : eobject) : pyres Z :=
  match o with E_int _ z => PyOk z | E_other i true _ => other i | _ => PyRaise PE_Type end.
Definition text_of (other : eobject -> pyres pystr) (o : eobject) : pyres pystr :=
  match o with E_str _ s => PyOk s | E_int _ z => PyOk (udec z) | E_none => PyOk (ustr "None") | o => other o end.

(** The three classes (pyerrors.cc 186-187, 292, 384-385): the name, and whether there is a number. *)
Inductive ekind : Type := K_Fault | K_ProtocolError | K_ResponseError.
Definition ename (k : ekind) : pystr :=
  match k with K_Fault => ustr "Fault" | K_ProtocolError => ustr "ProtocolError" | K_ResponseError => ustr "ResponseError" end.
Definition has_code (k : ekind) : bool := match k with K_ResponseError => false | _ => true end.

(** [ProtocolErrorObject], [FaultObject], [ResponseErrorObject] (pyerrors.cc 91-105, 197-211, 303-314): pointers, null at first;
    [e_taken] and [e_given] are the references taken (Py_INCREF) and given back (Py_DECREF) so far. *)
Record eobj : Type := { e_code : option eobject; e_message : option eobject; e_method : option eobject; e_taken : list eobject; e_given : list eobject }.
Definition e_new : eobj := {| e_code := None; e_message := None; e_method := None; e_taken := []; e_given := [] |}.
Definition pointer (o : option eobject) : list eobject := match o with Some x => [x] | None => [] end.

(** [Fault_init] (213-248), [ProtocolError_init] (107-145), [ResponseError_init] (316-343).  [named]: there are arguments by name,
    which the base class refuses.  [PyArg_ParseTuple] checks the number of arguments before it stores any.  Pointers that are in the object
    are overwritten. *)
Definition e_init (k : ekind) (named : bool) (args : list eobject) (o : eobj) : eobj * bool :=
  if named then (o, false) else
  let o := {| e_code := e_code o; e_message := e_message o; e_method := Some E_none; e_taken := e_taken o; e_given := e_given o |} in
  let with_all c m r :=
    {| e_code := c; e_message := Some m; e_method := Some r; e_taken := e_taken o ++ pointer (if has_code k then c else None) ++ [m; r]; e_given := e_given o |} in
  match has_code k, args with
  | true, [c; m] => (with_all (Some c) m E_none, is_number c && is_string m)
  | true, [c; m; r] => (with_all (Some c) m r, is_number c && is_string m)
  | false, [m] => (with_all (e_code o) m E_none, is_string m)
  | false, [m; r] => (with_all (e_code o) m r, is_string m)
  | _, _ => (o, false)
  end.

(** The attributes, all writable: [T_OBJECT_EX] (pyerrors.cc 177-185, 283-291, 375-382; CPython's [PyMember_SetOne]): the new value's
    reference is taken, the old value's given back; deleting what is null is refused (AttributeError). *)
Inductive eattr : Type := A_code | A_message | A_method.
Definition has_attr (k : ekind) (a : eattr) : bool := match a with A_code => has_code k | _ => true end.
Definition e_get (a : eattr) (o : eobj) : option eobject := match a with A_code => e_code o | A_message => e_message o | A_method => e_method o end.
Definition e_put (a : eattr) (v : option eobject) (o : eobj) : eobj :=
  {| e_code := match a with A_code => v | _ => e_code o end; e_message := match a with A_message => v | _ => e_message o end;
     e_method := match a with A_method => v | _ => e_method o end;
     e_taken := e_taken o ++ pointer v; e_given := e_given o ++ pointer (e_get a o) |}.

(** What a program does with such an object, until it goes away. *)
Inductive eaction : Type :=
| Do_init (named : bool) (args : list eobject)
| Do_set (a : eattr) (v : eobject)
| Do_del (a : eattr).
Definition e_act (k : ekind) (o : eobj) (d : eaction) : eobj :=
  match d with
  | Do_init named args => fst (e_init k named args o)
  | Do_set a v => if has_attr k a then e_put a (Some v) o else o
  | Do_del a => if has_attr k a then e_put a None o else o
  end.
Definition e_run (k : ekind) (l : list eaction) : eobj := fold_left (e_act k) l e_new.

(** [Fault_dealloc] and [Fault_clear] (251-265), and those of the others (147-161, 346-359): [Py_CLEAR] of each pointer. *)
Definition e_dealloc (k : ekind) (o : eobj) : eobj :=
  let o := if has_code k then e_put A_code None o else o in e_put A_method None (e_put A_message None o).

(** [errorRepr] (fastrpcmodule.cc 2834-2900), for [str] and [repr] alike.  A null pointer is an AttributeError here ([N] of
    [Py_BuildValue] with an exception set), but not for the method (2838-2840).  Anything else than None is taken for a [MethodObject]
    (2861). *)
Definition pb {A B} (x : pyres A) (f : A -> pyres B) : pyres B :=
  match x with PyOk a => f a | PyRaise e => PyRaise e | PyAbort => PyAbort | PyUndef => PyUndef end.
Inductive etext : Type := T_text (s : pystr) | T_attribute_error | T_raises (e : pyexn) | T_undefined.
Definition as_text (x : pyres pystr) : etext := match x with PyOk s => T_text s | PyRaise e => T_raises e | _ => T_undefined end.
Definition e_repr (other_int : Z -> pyres Z) (other_text : eobject -> pyres pystr) (k : ekind) (o : eobj) : etext :=
  let body code message rest :=
    as_text (pb (match code with Some c => pb (int_of other_int c) (fun z => PyOk (udec z ++ ustr ", ")) | None => PyOk [] end) (fun n =>
      pb (text_of other_text message) (fun m => PyOk (ustr "<fastrpc." ++ ename k ++ ustr ": " ++ n ++ m ++ rest ++ ustr ">")))) in
  let with_values rest :=
    match has_code k, e_code o, e_message o with
    | true, Some c, Some m => body (Some c) m rest
    | false, _, Some m => body None m rest
    | _, _, _ => T_attribute_error
    end in
  match e_method o with
  | None | Some E_none => with_values []
  | Some (E_method _ name url) =>
      match py_decode false name, py_decode false url with
      | Some n, Some u => with_values (ustr " [method " ++ n ++ ustr "() @ " ++ u ++ ustr "]")
      | _, _ =>
          match has_code k, e_code o, e_message o with
          | true, Some _, Some _ | false, _, Some _ => T_raises PE_Decode
          | _, _, _ => T_attribute_error
          end
      end
  | Some _ => T_undefined
  end.
