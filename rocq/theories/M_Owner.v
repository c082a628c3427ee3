(** Model of who deletes the method objects given to a [MethodRegistry_t] (frpcmethodregistry.cc 95-146). *)
From Verif Require Import Base Value.

(** What a program gives to a registry: objects are numbers, [None] a null pointer. *)
Inductive given_object : Type :=
| G_method (name : bytes) (m : Z)
| G_default (d : option Z)
| G_head (h : option Z).

(** [methodMap], [defaultMethod], [headMethod], and what was deleted so far, in order. *)
Record owner : Type := mkOwner { ow_methods : list (bytes * Z); ow_default : option Z; ow_head : option Z; ow_deleted : list Z }.

Definition pointed (p : option Z) : list Z := match p with Some z => [z] | None => [] end.

(** [registerMethod] (116-131), [registerDefaultMethod], [registerHeadMethod] (133-141). *)
Definition own_step (o : owner) (g : given_object) : owner :=
  match g with
  | G_method n m => mkOwner (map_set n m (ow_methods o)) (ow_default o) (ow_head o) (ow_deleted o)
  | G_default d => mkOwner (ow_methods o) d (ow_head o) (ow_deleted o ++ pointed (ow_default o))
  | G_head h => mkOwner (ow_methods o) (ow_default o) h (ow_deleted o ++ pointed (ow_head o))
  end.

(** The constructor (95-114): the objects it makes itself. *)
Definition own_system (introspection : bool) (list_methods help signature multicall : Z) : list given_object :=
  if introspection then
    [G_method (str "system.listMethods") list_methods; G_method (str "system.methodHelp") help; G_method (str "system.methodSignature") signature;
     G_method (str "system.multicall") multicall]
  else [].

(** A registry after what was given to it. *)
Definition owns (l : list given_object) : owner := fold_left own_step l (mkOwner [] None None []).

(** What was deleted when the destructor (143-146) has run. *)
Definition destroyed (o : owner) : list Z := ow_deleted o ++ map snd (ow_methods o).

(** The object a call uses (217-278): the method of the name, otherwise the default method; a HEAD request uses [ow_head] (367-385). *)
Definition used (o : owner) (name : bytes) : option Z :=
  match map_get name (ow_methods o) with Some m => Some m | None => ow_default o end.
