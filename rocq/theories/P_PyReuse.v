(** C123: what a Python server object answers does not depend on what it served before. *)
From Coq Require Import Lia.
From Verif Require Import Base Value Text M_Marshal M_BinUnmarshal M_TreeBuilder M_Base64 M_Url M_Http M_HttpIO M_HttpWriter M_Registry M_Server M_Python M_PyBuilder M_PyRegistry M_PyServer
  S_Value S_Http S_Server S_Reuse L_Base L_Server5 L_Reuse L_PyReuse P_Registry P_PyRegistry P_Server P_PyServer P_Reuse.

(** Whatever a Python server object did before (any state) and whatever comes in on the next connection, in whatever pieces: if HEAD requests
    are refused, no header fields are left over and the last request that could be read had the version 2.1, then what is sent and left
    unread, what the methods did and the outcome are those of a new server object. *)
Theorem C123_like_new_partial : forall W message own host (cfg : pconfig W) ums mars reason cut added g client st s w, py_head_refused cfg -> ps_own st = [] -> ps_ver st = mkVer 2 1 ->
  let new := py_serve message own host cfg ums mars reason cut added g client psrv_init s w in
  let used := py_serve message own host cfg ums mars reason cut added g client st s w in
  snd new = snd used /\ py_visible (fst new) = py_visible (fst used).
Proof. intros. unfold new, used, py_serve. apply py_loop_same; cbn; auto. Qed.
Print Assumptions C123_like_new_partial.
(** In general: two server objects of the same fields left over and the same version answer alike, and so do two connections with anything
    before. *)
Theorem C123_next_request : forall W message own host (cfg : pconfig W) ums mars reason cut added g client fuel n c d, py_head_refused cfg -> py_visible c = py_visible d ->
  ps_own (pc_srv c) = ps_own (pc_srv d) -> ps_ver (pc_srv c) = ps_ver (pc_srv d) ->
  let x := py_serve_loop message own host cfg ums mars reason cut added g client fuel n c in let y := py_serve_loop message own host cfg ums mars reason cut added g client fuel n d in
  snd x = snd y /\ py_visible (fst x) = py_visible (fst y).
Proof. intros. apply py_loop_same; assumption. Qed.
Print Assumptions C123_next_request.

(** Refuted: a request that cannot be read is answered in the protocol version of the client before. *)
Definition old_body : bytes := fst (bin_run (mkVer 1 0) (call_calls (str "add") [VInt 2; VInt 3])).
Definition unknown_type : bytes := head (str "HTTP/1.1") [accept; (str "Content-Type", str "text/plain"); (str "Content-Length", str "0")].
Definition py_ten_sample (st : psrv) (text : bytes) (w : wld) := py_sample py_ten (fun _ => []) ex_reg st (mkSock text [] Closed) w.
Theorem C123_version_refuted : exists before,
  let '(c1, x1) := py_ten_sample psrv_init before [] in
  x1 = Sv_none /\ ps_own (pc_srv c1) = [] /\
  contains [xca; x11; x02; x01] (pc_wire (fst (py_ten_sample psrv_init unknown_type (pc_world c1)))) = true /\
  contains [xca; x11; x02; x01] (pc_wire (fst (py_ten_sample (pc_srv c1) unknown_type (pc_world c1)))) = false /\
  contains [xca; x11; x01; x00] (pc_wire (fst (py_ten_sample (pc_srv c1) unknown_type (pc_world c1)))) = true.
Proof. exists (binary_request [accept; (str "Connection", str "close")] old_body). vm_compute. repeat split; reflexivity. Qed.
Print Assumptions C123_version_refuted.
(** Refuted: the answer to HEAD is in the format of the request before it, and even has a body (the end of the chunks). *)
Definition py_headed : pconfig wld := mkPConf wld true true 10 None (Some (fun w => (w, Returned (PyInt 0)))).
Definition py_head_sample (st : psrv) (text : bytes) := py_sample py_headed (fun _ => []) ex_reg st (mkSock text [] Closed) [].
Theorem C123_head_refuted : exists before,
  let '(c1, x1) := py_head_sample psrv_init before in
  x1 = Sv_none /\ ps_own (pc_srv c1) = [] /\ ps_ver (pc_srv c1) = mkVer 2 1 /\
  contains (str "Content-Type: text/xml") (pc_wire (fst (py_head_sample psrv_init a_head))) = true /\
  contains (str "Content-Type: application/x-frpc") (pc_wire (fst (py_head_sample (pc_srv c1) a_head))) = true /\
  contains (crlf ++ crlf ++ str "0" ++ crlf ++ crlf) (pc_wire (fst (py_head_sample (pc_srv c1) a_head))) = true.
Proof. exists (request_head p2 ++ add_body). vm_compute. repeat split; reflexivity. Qed.
Print Assumptions C123_head_refuted.

(** ** Examples *)
Example C123_refused : py_head_refused py_ten.
Proof. intros f w H. discriminate H. Qed.
Example C123_example : let before := py_ten_sample psrv_init (request_head p2 ++ add_body) [] in
  snd before = Sv_none /\ ps_own (pc_srv (fst before)) = [] /\ ps_ver (pc_srv (fst before)) = mkVer 2 1 /\ pc_srv (fst before) <> psrv_init /\
  pc_wire (fst (py_ten_sample (pc_srv (fst before)) (request_head p2 ++ add_body) [])) = pc_wire (fst before).
Proof. vm_compute. repeat split; try reflexivity. discriminate. Qed.
