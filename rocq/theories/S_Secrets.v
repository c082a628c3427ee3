(** Specification of secret marks: what a receiver should see of a value whose parts are marked secret. *)
From Verif Require Import Base Value Text M_Marshal M_BinUnmarshal.

(** What should arrive: as [plain] of [S_Value], but with the secret wrappers kept. *)
Fixpoint marked (f : datetime -> datetime) (v : value) : value :=
  match v with
  | VStringView s => VString s
  | VBinaryRef _ cs => VBinary (concat cs)
  | VDateTime d => VDateTime (f d)
  | VStruct m => VStruct (map (fun kv => (fst kv, marked f (snd kv))) m)
  | VArray l => VArray (map (marked f) l)
  | VSecret x => VSecret (marked f x)
  | v => v
  end.

(** Does the value have a secret part? *)
Fixpoint has_secret (v : value) : bool :=
  match v with
  | VStruct m => existsb (fun kv => has_secret (snd kv)) m
  | VArray l => existsb has_secret l
  | VSecret _ => true
  | _ => false
  end.

(** No secret inside a secret. *)
Fixpoint flat_secrets (v : value) : Prop :=
  match v with
  | VStruct m =>
      (fix all (l : list (bytes * value)) : Prop :=
         match l with [] => True | (_, x) :: r => flat_secrets x /\ all r end) m
  | VArray l =>
      (fix all (l : list value) : Prop :=
         match l with [] => True | x :: r => flat_secrets x /\ all r end) l
  | VSecret x => has_secret x = false
  | _ => True
  end.

(** Index 0, or an index whose decimal text has no digit 0. *)
Definition zero_free (i : Z) : Prop := i = 0 \/ ~ In x30 (dec i).

(** Every array position on the way to a secret is [zero_free]. *)
Fixpoint reachable_secrets (v : value) : Prop :=
  match v with
  | VStruct m =>
      (fix all (l : list (bytes * value)) : Prop :=
         match l with [] => True | (_, x) :: r => reachable_secrets x /\ all r end) m
  | VArray l =>
      (fix all (i : Z) (l : list value) : Prop :=
         match l with
         | [] => True
         | x :: r => ((has_secret x = true -> zero_free i) /\ reachable_secrets x) /\ all (i + 1) r
         end) 0 l
  | VSecret x => reachable_secrets x
  | _ => True
  end.
