(** C122: what a server object answers does not depend on what it served before. *)
From Coq Require Import Lia.
From Verif Require Import Base Value Text M_Marshal M_BinUnmarshal M_TreeBuilder M_Base64 M_Url M_Http M_HttpIO M_HttpWriter M_Registry M_Server
  S_Value S_Http S_Server S_Reuse L_Base L_Server5 L_Reuse P_Registry P_Server.

(** Whatever a server object did before (any state [st]) and whatever comes in on the next connection, in whatever pieces: if HEAD requests are
    refused, then what is sent and left unread, the calls made, the state of the application and the outcome are those of a new server
    object; or the behaviour is undefined. *)
Theorem C122_like_new_partial : forall W message cfg ums mars reason cut (added : W -> header) g st s w, head_refused g ->
  let new := serve message cfg ums mars reason cut added g srv_init s w in
  let used := serve message cfg ums mars reason cut added g st s w in
  snd used = UB \/ (snd new = snd used /\ visible (fst new) = visible (fst used)).
Proof.
  intros. destruct (serve_state message cfg ums mars reason cut added g true srv_init st s w H eq_refl) as [(_ & U)|S]; [discriminate|left; exact U|right; exact S].
Qed.
Print Assumptions C122_like_new_partial.

(** It is not undefined unless a new server object's is, if the last connection did not leave its header behind. *)
Theorem C122_no_header_partial : forall W message cfg ums mars reason cut (added : W -> header) g st s w, head_refused g -> s_extra st = No_header ->
  let new := serve message cfg ums mars reason cut added g srv_init s w in
  let used := serve message cfg ums mars reason cut added g st s w in
  snd new = snd used /\ visible (fst new) = visible (fst used).
Proof.
  intros. destruct (serve_state message cfg ums mars reason cut added g false srv_init st s w H eq_refl) as [(X & _)|S]; [auto|discriminate X|exact S].
Qed.
Print Assumptions C122_no_header_partial.

(** The same within a connection: whatever was served before on it, the next requests are answered as on a connection of their own, as long as
    the number of requests allows. *)
Theorem C122_next_request : forall W message cfg ums mars reason cut (added : W -> header) g fuel n c d, head_refused g -> visible c = visible d -> s_extra (c_srv c) = s_extra (c_srv d) ->
  let x := serve_loop message cfg ums mars reason cut added g fuel n c in let y := serve_loop message cfg ums mars reason cut added g fuel n d in
  snd x = snd y /\ visible (fst x) = visible (fst y).
Proof.
  intros. destruct (serve_loop_same message cfg ums mars reason cut added g false fuel n c d H H0) as [(X & _)|S]; [left; exact H1|discriminate X|exact S].
Qed.
Print Assumptions C122_next_request.

(** Refuted: the answer to HEAD is in the format and transfer coding of the request before it, or of a new object. *)
Definition with_head : registry (W:=Z) := register_head (fun w => (w, true)) app.
Definition head_serve (st : srv) (text : bytes) : conn (W:=Z) * res unit :=
  serve msg_of ten sample_ums (writers no_double) no_reason by_bytes (fun _ => []) with_head st (mkSock text [] Closed) 0.
Definition a_head : bytes := str "HEAD / HTTP/1.1" ++ crlf ++ crlf.
Theorem C122_head_refuted : exists before,
  snd (head_serve srv_init before) = Ok tt /\ s_extra (c_srv (fst (head_serve srv_init before))) = No_header /\
  contains (str "Content-Type: text/xml") (c_wire (fst (head_serve srv_init a_head))) = true /\
  contains (str "Transfer-Encoding: chunked") (c_wire (fst (head_serve srv_init a_head))) = false /\
  contains (str "Content-Type: application/x-frpc") (c_wire (fst (head_serve (c_srv (fst (head_serve srv_init before))) a_head))) = true /\
  contains (str "Transfer-Encoding: chunked") (c_wire (fst (head_serve (c_srv (fst (head_serve srv_init before))) a_head))) = true.
Proof. exists (request_head q2 ++ echo_body). vm_compute. repeat split; reflexivity. Qed.
Print Assumptions C122_head_refuted.
(** On one connection, too. *)
Theorem C122_head_again_refuted : exists before wire,
  c_wire (fst (head_serve srv_init (before ++ a_head))) = c_wire (fst (head_serve srv_init before)) ++ wire /\
  contains (str "Transfer-Encoding: chunked") wire = true /\ snd (head_serve srv_init (before ++ a_head)) = Ok tt.
Proof. exists (request_head q1 ++ echo_body). eexists. split; [vm_compute; reflexivity|]. vm_compute. split; reflexivity. Qed.
Print Assumptions C122_head_again_refuted.

(** ** Examples *)
Example C122_refused : head_refused app.
Proof. intros f w H. discriminate H. Qed.
Example C122_example :
  let before := sample_serve srv_init (mkSock (request_head q2 ++ echo_body) [] Closed) 0 in
  let again := sample_serve (c_srv (fst before)) (mkSock (request_head q2 ++ echo_body) [3] Closed) 1 in
  s_extra (c_srv (fst before)) = No_header /\ c_srv (fst before) <> srv_init /\ snd again = Ok tt /\ c_world (fst again) = 2 /\ c_wire (fst again) = c_wire (fst before).
Proof. vm_compute. repeat split; try reflexivity. discriminate. Qed.
