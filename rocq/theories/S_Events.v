(** Specification of well formed sequences of builder calls, independent of the decoder. *)
From Verif Require Import Base Value M_Marshal M_BinUnmarshal.

(** A builder that also keeps the list of all calls it has received (including a call it answers
    by throwing), oldest first. *)
Definition traced {B} (bstep : B -> event -> B * option fail)
  (s : B * list event) (e : event) : (B * list event) * option fail :=
  let '(b', f) := bstep (fst s) e in ((b', snd s ++ [e]), f).

(** An open container: items still to come, its kind, and for a struct whether a member name was
    announced whose value has not come yet. *)
Definition open_container : Type := (Z * kind * bool)%type.

Inductive nstate : Type :=
| NStart                              (* nothing reported yet *)
| NBody (open : list open_container)  (* inside a call or a response; innermost container first *)
| NEnd.                               (* after a fault *)

(** May a value come here?  Then one item less is expected. *)
Definition take_item (open : list open_container) : option (list open_container) :=
  match open with
  | [] => Some []
  | (n, KArray, _) :: r => if 0 <? n then Some ((n - 1, KArray, false) :: r) else None
  | (n, KStruct, true) :: r => if 0 <? n then Some ((n - 1, KStruct, false) :: r) else None
  | (_, KStruct, false) :: _ => None
  end.

(** A close needs all announced items delivered and the same kind. *)
Definition close_item (k : kind) (open : list open_container) : option nstate :=
  match k, open with
  | KStruct, (n, KStruct, false) :: r => if n =? 0 then Some (NBody r) else None
  | KArray, (n, KArray, _) :: r => if n =? 0 then Some (NBody r) else None
  | _, _ => None
  end.

(** A member name (never empty) needs a struct that still expects items and no other name pending. *)
Definition name_item (k : bytes) (open : list open_container) : option nstate :=
  match open with
  | (n, KStruct, false) :: r =>
      if (0 <? n) && (0 <? blen k) then Some (NBody ((n, KStruct, true) :: r)) else None
  | _ => None
  end.

Definition nest_step (s : nstate) (e : event) : option nstate :=
  match s with
  | NStart =>
      match e with
      | EMethodCall _ | EMethodResponse => Some (NBody [])
      | EFault _ _ => Some NEnd
      | _ => None
      end
  | NBody open =>
      match e with
      | EInt _ | EBool _ | ENull | EDouble _ | EString _ | EBinary _ | EDateTime _ =>
          option_map NBody (take_item open)
      | EOpenStruct n => option_map (fun o => NBody ((n, KStruct, false) :: o)) (take_item open)
      | EOpenArray n => option_map (fun o => NBody ((n, KArray, false) :: o)) (take_item open)
      | ECloseStruct => close_item KStruct open
      | ECloseArray => close_item KArray open
      | EMember k => name_item k open
      | EMethodCall _ | EMethodResponse | EFault _ _ => None
      end
  | NEnd => None
  end.

Fixpoint nest_run (s : nstate) (es : list event) : option nstate :=
  match es with
  | [] => Some s
  | e :: r => match nest_step s e with Some s' => nest_run s' r | None => None end
  end.

(** A prefix of a well nested sequence of builder calls. *)
Definition well_nested (es : list event) : Prop := nest_run NStart es <> None.

(** A builder call within the limits of the format: sizes below 2^30, names of 1 to 255 bytes. *)
Definition bounded (e : event) : Prop :=
  match e with
  | EString s | EBinary s => blen s < 2 ^ 30
  | EOpenStruct n | EOpenArray n => 0 <= n < 2 ^ 30
  | EMember k | EMethodCall k => 1 <= blen k <= 255
  | EFault c msg => in_s32 c /\ blen msg < 2 ^ 30
  | _ => True
  end.

(** Further [unMarshall] calls on an object, going on after exceptions: the outcome of each call
    and the final builder. *)
Fixpoint attempts {B} (bstep : B -> event -> B * option fail) (req : Z) (u : unm) (b : B) (datas : list bytes)
  : list (option fail) * B :=
  match datas with
  | [] => ([], b)
  | d :: r =>
      let '(u', b', f) := unmarshall B bstep req u b d in
      let '(fs, b2) := attempts bstep req u' b' r in (f :: fs, b2)
  end.
