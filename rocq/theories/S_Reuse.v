(** Specification: what a server object answers does not depend on what it served before. *)
From Verif Require Import Base Value M_HttpIO M_Registry M_Server.

(** What can be seen of a connection: what was sent, what is left unread, the state of the application and the calls of its callbacks. *)
Definition visible {W} (c : conn (W:=W)) : bytes * sock * W * list callback := (c_wire c, c_sock c, c_world c, c_log c).

(** HEAD requests are refused: there is no method for them, or it refuses. *)
Definition head_refused {W} (g : registry (W:=W)) : Prop := forall f w, g_head g = Some f -> snd (f w) = false.

(** The Python server likewise. *)
From Verif Require Import M_Python M_PyBuilder M_PyRegistry M_PyServer.
Definition py_visible {W} (c : pconn (W:=W)) : bytes * sock * W := (pc_wire c, pc_sock c, pc_world c).
Definition py_head_refused {W} (cfg : pconfig W) : Prop := forall f w, pf_head cfg = Some f -> match snd (f w) with Returned v => as_long v <> Some 0 | _ => True end.
