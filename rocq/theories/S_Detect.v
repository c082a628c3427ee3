(** What a user who leaves the choice of the format to the library expects. *)
From Verif Require Import Base Value M_Marshal M_TreeBuilder M_Registry.

(** What a reader gets from an unmarshaller of known format: what its builder has built. *)
Definition um_got (u : unmarshaller) (s : um_state u) (pieces : list bytes) : res tb :=
  match um_all u s pieces with
  | (s, None) => let '(s', x) := um_finish u s in bind x (fun _ => Ok (um_builder u s'))
  | (_, Some (Exn e)) => Err e
  | (_, Some Undef) => UB
  end.

(** A message cut into a first piece of at least four bytes and any others. *)
Definition cut_after_4 (data first : bytes) (rest : list bytes) : Prop :=
  4 <= blen first /\ concat (first :: rest) = data /\ Forall (fun d => d <> []) rest.
