(** Model of src/frpcserverproxy.cc: the configuration (61-102), the cache of proxies (269-453), construction and
    destruction of a ServerProxy_t (455-481).  Calls are in M_Client. *)
From Verif Require Import Base Value Text M_Marshal M_Values M_Base64 M_Http M_Client.

(** * Configuration from a struct *)
(** [FRPC::Int], [FRPC::Bool], [FRPC::String] (frpcint.h 134-141, frpcbool.h 126-134, frpcstring.h 188-197). *)
Definition as_int (v : value) : res Z := match v with VInt z => Ok z | _ => Err TypeError end.
Definition as_bool (v : value) : res bool := match v with VBool b => Ok b | _ => Err TypeError end.
Definition as_string (v : value) : res bytes := match v with VString s => Ok s | _ => Err TypeError end.

(** [getTimeout] (frpcserverproxy.cc 61-70).  The [int] is then stored in an [unsigned int]. *)
Definition get_timeout (m : members) (name : bytes) (default : Z) : res Z :=
  match struct_get name m with
  | None => Ok (u32 default)
  | Some v => bind (as_int v) (fun z => Ok (u32 (s32 z)))
  end.

(** [is >> c] for an [unsigned char]: white space is skipped, one character is read. *)
Fixpoint next_char (s : bytes) : option (byte * bytes) :=
  match s with
  | [] => None
  | c :: r => if is_space c then next_char r else Some (c, r)
  end.
(** [parseProtocolVersion] (frpcserverproxy.cc 72-87).  [major] and [minor] are [uint8_t], so that characters are read, not numbers; one
    that could not be read is indeterminate, which is modelled as undefined. *)
Definition parse_version (m : members) (name : bytes) : res version :=
  bind (as_string (struct_get_default name (VString []) m)) (fun text =>
    match text with
    | [] => Ok (mkVer 2 1)
    | _ =>
        match next_char text with
        | None => UB
        | Some (a, r) => match next_char r with None => UB | Some (b, _) => Ok (mkVer (b2z a) (b2z b)) end
        end
    end).

(** [configFromStruct] (frpcserverproxy.cc 89-102): the proxy URL and the rest, read in this order. *)
Definition config_from_struct (m : members) : res (bytes * pconf) :=
  bind (as_string (struct_get_default (str "proxyUrl") (VString []) m)) (fun via =>
  bind (get_timeout m (str "readTimeout") 10000) (fun rd =>
  bind (get_timeout m (str "writeTimeout") 1000) (fun wr =>
  bind (as_int (struct_get_default (str "transferMode") (VInt 0) m)) (fun mode =>
  bind (as_bool (struct_get_default (str "useHTTP10") (VBool false) m)) (fun http10 =>
  bind (parse_version m (str "protocolVersion")) (fun ver =>
  bind (get_timeout m (str "connectTimeout") 10000) (fun co =>
  bind (as_bool (struct_get_default (str "keepAlive") (VBool false) m)) (fun keep =>
  Ok (via, mkPc co rd wr keep (u32 mode) http10 ver))))))))).

(** * The cache *)
(** [gettimemilliseconds] (frpcserverproxy.cc 293-297). *)
Definition now_ms (sec usec : Z) : Z := u64 (sec * 1000 + (usec + 500) / 1000).

(** [TimeoutListHead] (frpcserverproxy.cc 300-332): an entry is known by a number, given when it is made; [next_setoff_time],
    [final_setoff_time].  The head of a queue has its own [next_setoff_time]; the doubly linked list is a list. *)
Record timer : Type := mkTm { tm_id : Z; tm_next : Z; tm_final : Z }.
Record tqueue : Type := mkTq { tq_head : Z; tq_timers : list timer }.
(** [ProxyCache_t] (frpcserverproxy.cc 269-453): [map], here in the order of insertion (entries with equal keys are in this order in a
    [std::multimap]); [timeouts]; the number for the next entry. *)
Record cache : Type := mkCache { k_map : list (Z * proxy); k_queues : nat -> tqueue; k_fresh : Z }.
Definition cache_init : cache := mkCache [] (fun _ => mkTq 0 []) 0.
Definition QUEUES : nat := 20.

(** Two keys are equal when neither is less ([LessURL_t], frpcserverproxy.cc 271-281). *)
Definition same_key (a b : url) : bool :=
  (u_port a =? u_port b) && bytes_eqb (u_path a) (u_path b) && bytes_eqb (u_host a) (u_host b).

(** Assignment to [timeouts[i]] (frpcserverproxy.cc 353-361). *)
Definition set_queue (i : nat) (q : tqueue) (qs : nat -> tqueue) : nat -> tqueue := fun j => if Nat.eqb j i then q else qs j.

(** The queue and [next_setoff_time] (frpcserverproxy.cc 340-351): [fuel] is the number of queues after [i]. *)
Fixpoint pick_queue (fuel : nat) (i : nat) (timeout now final : Z) : nat * Z :=
  match fuel with
  | O => (i, final)
  | S k => let t := Z.shiftr timeout 1 in
           if t =? 0 then (i, u64 (now + Z.shiftl 1 (Z.of_nat i))) else pick_queue k (S i) t now final
  end.
(** [schedule] (frpcserverproxy.cc 335-362) of an entry that is in no queue. *)
Definition schedule (id final now : Z) (qs : nat -> tqueue) : nat -> tqueue :=
  let '(i, next) := pick_queue (QUEUES - 1) 0 (u64 (final - now)) now final in
  let q := qs i in
  set_queue i (mkTq (if next <? tq_head q then next else tq_head q) (tq_timers q ++ [mkTm id next final])) qs.

(** [map.erase(it)]: destroys the proxy, which closes its socket. *)
Definition erase_id (id : Z) (m : list (Z * proxy)) : list (Z * proxy) := filter (fun e => negb (fst e =? id)) m.

(** The inner loop of [perform_upkeep_locked] (frpcserverproxy.cc 378-394) for one queue; [None]: it has not ended within [fuel] rounds. *)
Fixpoint retire (fuel : nat) (now : Z) (i : nat) (c : cache) : option cache :=
  match fuel with
  | O => None
  | S k =>
      let q := k_queues c i in
      match tq_timers q with
      | [] => Some c
      | t :: r =>
          if now <? tm_next t then Some (mkCache (k_map c) (set_queue i (mkTq (tm_next t) (t :: r)) (k_queues c)) (k_fresh c))
          else
            let qs := set_queue i (mkTq (tq_head q) r) (k_queues c) in
            if now <? tm_final t then retire k now i (mkCache (k_map c) (schedule (tm_id t) (tm_final t) now qs) (k_fresh c))
            else retire k now i (mkCache (erase_id (tm_id t) (k_map c)) qs (k_fresh c))
      end
  end.
(** [perform_upkeep_locked] (frpcserverproxy.cc 371-396) from queue [i] on, [n] queues left. *)
Fixpoint upkeep_from (n : nat) (i : nat) (now : Z) (c : cache) : option cache :=
  match n with
  | O => Some c
  | S k =>
      if now <? tq_head (k_queues c i) then upkeep_from k (S i) now c
      else match retire (S (List.length (tq_timers (k_queues c i)))) now i c with
           | None => None
           | Some c1 => upkeep_from k (S i) now c1
           end
  end.
Definition upkeep (now : Z) (c : cache) : option cache := upkeep_from QUEUES 0 now c.

(** What [lookup] changes in the proxy it found (frpcserverproxy.cc 424-429): [setReadTimeout] etc. *)
Definition reconfigure (c : pconf) (p : proxy) : proxy :=
  mkProxy (x_url p) (mkPc (a_connect c) (a_read c) (a_write c) (a_keep (x_conf p)) (a_mode c) (a_http10 c) (a_version c))
    (x_protocols p) (x_headers p) (x_once p) (x_fd p).
Fixpoint find_key (u : url) (m : list (Z * proxy)) : option (Z * proxy) :=
  match m with
  | [] => None
  | (id, p) :: r => if same_key (x_url p) u then Some (id, p) else find_key u r
  end.
(** The timer of an erased entry leaves its queue ([~TimeoutListHead]). *)
Definition delink (id : Z) (qs : nat -> tqueue) : nat -> tqueue :=
  fun i => mkTq (tq_head (qs i)) (filter (fun t => negb (tm_id t =? id)) (tq_timers (qs i))).

Section Cache.
  (** FASTRPC_SERVER_PROXY_CACHE_TIMEOUT, in seconds (frpcserverproxy.cc 400-405). *)
  Variable timeout : Z.

  (** [lookup] (frpcserverproxy.cc 412-431).  [None]: the upkeep does not end.  A mutex is held, so that operations do not interleave. *)
  Definition lookup (now : Z) (u : url) (conf : pconf) (c : cache) : option (cache * option proxy) :=
    if timeout =? 0 then Some (c, None)
    else match upkeep now c with
         | None => None
         | Some c1 =>
             match find_key u (k_map c1) with
             | None => Some (c1, None)
             | Some (id, p) => Some (mkCache (erase_id id (k_map c1)) (delink id (k_queues c1)) (k_fresh c1), Some (reconfigure conf p))
             end
         end.

  (** [move_into] (frpcserverproxy.cc 434-446), the clock read twice.  [timeout * 1000] is an [int] product: [UB] on overflow. *)
  Definition move_into (now now2 : Z) (p : proxy) (c : cache) : option (res cache) :=
    if timeout =? 0 then Some (Ok c)
    else match upkeep now c with
         | None => None
         | Some c1 =>
             if negb ((- 2 ^ 31 <=? timeout * 1000) && (timeout * 1000 <? 2 ^ 31)) then Some UB
             else
               let final := u64 (now2 + u32 (timeout * 1000)) in
               Some (Ok (mkCache (k_map c1 ++ [(k_fresh c1, p)]) (schedule (k_fresh c1) final now2 (k_queues c1)) (k_fresh c1 + 1)))
         end.

  (** [createImpl] (frpcserverproxy.cc 455-466) and the constructors. *)
  Definition make_proxy (now : Z) (server via : bytes) (conf : pconf) (c : cache) : option (cache * res proxy) :=
    match url_make server via with
    | Err e => Some (c, Err e)
    | UB => Some (c, UB)
    | Ok u =>
        if a_keep conf then
          match lookup now u conf c with
          | None => None
          | Some (c1, Some p) => Some (c1, Ok p)
          | Some (c1, None) => Some (c1, Ok (new_proxy u conf))
          end
        else Some (c, Ok (new_proxy u conf))
    end.
  (** [~ServerProxy_t] (frpcserverproxy.cc 476-481): an implementation that is not moved into the cache is deleted. *)
  Definition drop_proxy (now now2 : Z) (p : proxy) (c : cache) : option (res cache) :=
    if a_keep (x_conf p) then move_into now now2 p c else Some (Ok c).
End Cache.
