(** What a user may expect of the cache of proxies, independently of its timer queues. *)
From Verif Require Import Base Value Text M_Marshal M_Values M_Base64 M_Http M_Client M_Proxy.

(** Two URLs lead to the same place: the same machine and port, and requests for the same resource.  (Whether "http" or
    "https" was written, and whether a proxy was given, matter for the port and the path only.) *)
Definition same_address (a b : url) : Prop := u_host a = u_host b /\ u_port a = u_port b /\ u_path a = u_path b.

(** What happens to proxies: one is constructed at time [t]; one is destroyed, whatever was done with it since (the clock
    shows [t1] and then [t2]). *)
Inductive life : Type := Make (server via : bytes) (c : pconf) (t : Z) | Drop (p : proxy) (t1 t2 : Z).

(** Every proxy that is kept for later, oldest first, with the time until which it may be used. *)
Definition kept := list (Z * proxy).
Definition fits_request (u : url) (t : Z) (e : Z * proxy) : Prop := t < fst e /\ same_address (x_url (snd e)) u.

(** The same connection, with what is known of the server and with its headers, and the new configuration. *)
Definition handed (c : pconf) (p : proxy) : proxy := mkProxy (x_url p) c (x_protocols p) (x_headers p) (x_once p) (x_fd p).

(** Proxies with keep-alive are kept for [ms] milliseconds.  A new one with keep-alive takes over the oldest kept one
    that fits and has time left; otherwise it is really new. *)
Inductive life_step (ms : Z) : kept -> life -> option (res proxy) -> kept -> Prop :=
| step_keep : forall k p t1 t2, a_keep (x_conf p) = true -> life_step ms k (Drop p t1 t2) None (k ++ [(t2 + ms, p)])
| step_close : forall k p t1 t2, a_keep (x_conf p) = false -> life_step ms k (Drop p t1 t2) None k
| step_bad : forall k server via c t e, url_make server via = Err e -> life_step ms k (Make server via c t) (Some (Err e)) k
| step_hit : forall k1 e p k2 server via u c t, url_make server via = Ok u -> a_keep c = true ->
    fits_request u t (e, p) -> Forall (fun x => ~ fits_request u t x) k1 ->
    life_step ms (k1 ++ (e, p) :: k2) (Make server via c t) (Some (Ok (handed c p))) (k1 ++ k2)
| step_miss : forall k server via u c t, url_make server via = Ok u -> a_keep c = true ->
    Forall (fun x => ~ fits_request u t x) k ->
    life_step ms k (Make server via c t) (Some (Ok (new_proxy u c))) k
| step_new : forall k server via u c t, url_make server via = Ok u -> a_keep c = false ->
    life_step ms k (Make server via c t) (Some (Ok (new_proxy u c))) k.
Inductive life_steps (ms : Z) : kept -> list life -> list (option (res proxy)) -> kept -> Prop :=
| steps_nil : forall k, life_steps ms k [] [] k
| steps_cons : forall k o x k1 ops xs k2, life_step ms k o x k1 -> life_steps ms k1 ops xs k2 ->
    life_steps ms k (o :: ops) (x :: xs) k2.

(** The clock never goes back; it shows less than 2^62 milliseconds. *)
Fixpoint clock_from (t : Z) (ops : list life) : Prop :=
  match ops with
  | [] => True
  | Drop _ t1 t2 :: r => t <= t1 <= t2 /\ t2 < 2 ^ 62 /\ clock_from t2 r
  | Make _ _ _ t1 :: r => t <= t1 < 2 ^ 62 /\ clock_from t1 r
  end.
(** The last time the cache was used. *)
Fixpoint last_look (t : Z) (ops : list life) : Z :=
  match ops with
  | [] => t
  | Drop p t1 _ :: r => last_look (if a_keep (x_conf p) then t1 else t) r
  | Make server via c t1 :: r => last_look (match url_make server via with Ok _ => if a_keep c then t1 else t | _ => t end) r
  end.

(** The library under this history, and what was constructed; [None]: one operation does not return. *)
Section Run.
  Variable timeout : Z.
  Fixpoint run_lives (c : cache) (ops : list life) : option (res (cache * list (option (res proxy)))) :=
    match ops with
    | [] => Some (Ok (c, []))
    | Drop p t1 t2 :: r =>
        match drop_proxy timeout t1 t2 p c with
        | None => None
        | Some (Ok c1) =>
            match run_lives c1 r with
            | Some (Ok (c2, xs)) => Some (Ok (c2, None :: xs))
            | y => y
            end
        | Some (Err e) => Some (Err e)
        | Some UB => Some UB
        end
    | Make server via conf t :: r =>
        match make_proxy timeout t server via conf c with
        | None => None
        | Some (c1, x) =>
            match run_lives c1 r with
            | Some (Ok (c2, xs)) => Some (Ok (c2, Some x :: xs))
            | y => y
            end
        end
    end.
End Run.

(** The proxies destroyed with keep-alive, and those constructed. *)
Definition dropped (ops : list life) : list proxy :=
  flat_map (fun o => match o with Drop p _ _ => if a_keep (x_conf p) then [p] else [] | _ => [] end) ops.
Definition made (xs : list (option (res proxy))) : list proxy := flat_map (fun x => match x with Some (Ok p) => [p] | _ => [] end) xs.
Definition no_headers (p : proxy) : Prop := x_headers p = [] /\ x_once p = [].

(** * Configuration by a struct *)
(** The value of a setting, given its default. *)
Definition setting (m : members) (k : string) (default v : value) : Prop :=
  (struct_get (str k) m = None /\ v = default) \/ struct_get (str k) m = Some v.
(** The version is left to the library. *)
Definition no_version (m : members) : Prop :=
  struct_get (str "protocolVersion") m = None \/ struct_get (str "protocolVersion") m = Some (VString []).
