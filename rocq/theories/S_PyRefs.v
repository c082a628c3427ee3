(** Specification: the references that are never given back when Python objects are built from a sequence of builder calls. *)
From Verif Require Import Base Value M_Marshal M_BinUnmarshal M_Python M_PyRefs.

(** Calls that bring a value. *)
Definition brings (e : event) : bool :=
  match e with
  | EInt _ | EBool _ | ENull | EDouble _ | EString _ | EBinary _ | EDateTime _ | EOpenStruct _ | EOpenArray _ => true
  | _ => false
  end.
Definition opens (e : event) : bool := match e with EOpenStruct _ | EOpenArray _ => true | _ => false end.
Definition closes (e : event) : bool := match e with ECloseStruct | ECloseArray => true | _ => false end.
Definition is_null (e : event) : bool := match e with ENull => true | _ => false end.
Definition nulls (l : list event) : Z := Z.of_nat (length (filter is_null l)).

(** A text or the name of the member the value is for is not UTF-8. *)
Definition undecodable (pass : bool) (name : option bytes) (e : event) : bool :=
  match e with EString s => match py_decode pass s with None => true | _ => false end | _ => false end ||
  (brings e && match name with Some k => match key_of k with None => true | _ => false end | None => false end).

(** One for each member whose name is not ASCII, and one for a fault; after something that cannot be decoded one for each null. *)
Fixpoint never_given_back (pass : bool) (name : option bytes) (l : list event) : Z :=
  match l with
  | [] => 0
  | e :: r =>
      if undecodable pass name e then nulls r
      else match e with EFault _ _ => 1 | _ => 0 end +
           (if brings e then match name with Some k => if non_ascii k then 1 else 0 | None => 0 end else 0) +
           never_given_back pass (match e with EMember k => Some k | _ => None end) r
  end.

(** The number of values that are in no container. *)
Fixpoint top_values (depth : nat) (l : list event) : nat :=
  match l with
  | [] => 0
  | e :: r => (if brings e && (depth =? 0)%nat then 1 else 0) + top_values (if opens e then S depth else if closes e then pred depth else depth) r
  end.
(** A call, a fault, or a response with one value. *)
Definition one_result (l : list event) : Prop := match l with EMethodResponse :: r => (top_values 0 r <= 1)%nat | _ => True end.
