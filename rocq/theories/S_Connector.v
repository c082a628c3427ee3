(** What a user may expect of connecting: descriptors are neither leaked nor closed twice, a connection that is reported
    was made, and it was made to the address of the URL. *)
From Verif Require Import Base Value M_Connector.

(** The descriptors open after these system calls: [None] if a descriptor is closed or connected that is not open, or one
    is opened that is still open. *)
Definition sys_step (open : list Z) (e : sys) : option (list Z) :=
  match e with
  | Sys_socket fd => if existsb (Z.eqb fd) open then None else Some (fd :: open)
  | Sys_close fd => if existsb (Z.eqb fd) open then Some (filter (fun x => negb (x =? fd)) open) else None
  | Sys_connect fd _ => if existsb (Z.eqb fd) open then Some open else None
  end.
Fixpoint open_after (open : list Z) (es : list sys) : option (list Z) :=
  match es with
  | [] => Some open
  | e :: r => match sys_step open e with Some o => open_after o r | None => None end
  end.
(** The caller remembers one descriptor, or -1. *)
Definition remembered (fd : Z) : list Z := if fd =? -1 then [] else [fd].

(** The kernel numbers descriptors from 0. *)
Definition kernel_ok (o : os) : Prop := forall s, o_socket o = Some s -> 0 <= s.

(** The connection made in this way is complete. *)
Definition completes (o : os) : Prop :=
  o_connect o = Connect_done \/
  (o_connect o = Connect_pending /\ o_wait o = Poll_ready /\ o_getsockopt o = true /\ o_status o = true).

(** Several connects in turn on one remembered descriptor, each with the answers of the kernel. *)
Section History.
  Variable connect : bool -> os -> Z -> Z * list sys * res unit.
  Record round : Type := mkRound { r_keep : bool; r_os : os; r_calls : list sys; r_end : res unit }.
  Fixpoint history (fd : Z) (l : list (bool * os)) : Z * list round :=
    match l with
    | [] => (fd, [])
    | (keep, o) :: r =>
        let '(fd1, es, x) := connect keep o fd in
        let '(fd2, rs) := history fd1 r in (fd2, mkRound keep o es x :: rs)
    end.
End History.
Definition all_calls (rs : list round) : list sys := flat_map r_calls rs.

(** The descriptor was made in one of these rounds, its connection was completed there, to this address, and it was not
    closed since. *)
Definition established (a : address) (fd : Z) (rs : list round) : Prop :=
  exists before r after made, rs = before ++ r :: after /\ r_calls r = made ++ [Sys_socket fd; Sys_connect fd a] /\
    completes (r_os r) /\ r_end r = Ok tt /\ ~ In (Sys_close fd) (all_calls after).

(** The kernel found that the peer had closed the old connection, or an error on it. *)
Definition peer_gone (o : os) : Prop := o_poll o = Poll_error \/ (o_poll o = Poll_ready /\ o_peek o <> Recv_data).

(** * Where a URL leads *)
From Verif Require Import Text M_Http S_Http.
(** The name in a URL and whether it is an IPv6 address (in brackets). *)
Inductive names_host : bytes -> bool -> bytes -> Prop :=
| names_plain : forall h, plain_host h -> h <> [] -> names_host h false h
| names_v6 : forall a, bracket_host (x5b :: a ++ [x5d]) -> names_host (x5b :: a ++ [x5d]) true a.
(** [text] is a URL of a host and a port. *)
Inductive inet_url : bytes -> bool -> bytes -> Z -> Prop :=
| inet_http : forall scheme host pt pa path v6 name port default,
    (same_name scheme (str "http://") /\ default = 80) \/ (same_name scheme (str "https://") /\ default = 443) ->
    names_host host v6 name -> (v6 = true \/ pt = [] \/ ~ In x5d pa) -> port_text default pt port -> path_text pa path ->
    inet_url (scheme ++ host ++ pt ++ pa) v6 name port.
