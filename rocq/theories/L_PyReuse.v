(** Proofs: what a Python server object answers does not depend on what it served before. *)
From Coq Require Import Lia.
From Verif Require Import Base Value Text M_Marshal M_BinUnmarshal M_TreeBuilder M_Base64 M_Url M_Http M_HttpIO M_HttpWriter M_Registry M_Server M_Python M_PyBuilder M_PyRegistry M_PyServer L_Base S_Reuse L_Reuse.

Lemma first_no_stream : forall fuel s, no_stream (snd (first_line fuel s)).
Proof.
  induction fuel as [|fuel IH]; intro s; [exact I|]. cbn [first_line]. unfold read_line_opt.
  pose proof (line_no_stream (S (Datatypes.length (pending s))) true (-1) false true [] s) as L. destruct (read_line_loop _ _ _ _ _ _ _) as (s1 & [[|]|e|]); cbn [snd] in *; auto.
Qed.

Section PyReuse.
  Context {W : Type}.
  Variable message : exn -> bytes.
  Variable own : pyexn -> pystr.
  Variable host : datetime -> datetime.
  Variable cfg : pconfig W.
  Variable ums : in_type -> pyum.
  Variable mars : out_type -> version -> marshaller.
  Variable reason : Z -> bytes.
  Variable cut : bytes -> list bytes.
  Variable added : W -> header.
  Variable g : pregistry (W:=W).
  Variable client : py.

  Definition py_after_read {B} (a b : psrv) (r : res B) : Prop :=
    ps_own a = ps_own b /\ ps_ver a = ps_ver b /\ ps_close a = ps_close b /\ ps_is_head a = ps_is_head b /\
    match r with
    | Err (StreamError _) => ps_out a = ps_out b /\ ps_chunks a = ps_chunks b
    | Ok _ => ps_is_head a = false -> ps_out a = ps_out b /\ ps_chunks a = ps_chunks b
    | _ => True
    end.

  Lemma py_read_same : forall a b s, ps_own a = ps_own b -> ps_ver a = ps_ver b ->
    exists x y s1 r, py_read_request cfg ums a s = (x, s1, r) /\ py_read_request cfg ums b s = (y, s1, r) /\ py_after_read x y r.
  Proof.
    intros a b s E V. unfold py_read_request.
    pose proof (first_no_stream (S (Datatypes.length (pending s))) s) as N. destruct (first_line _ s) as (s1 & [line|e|]).
    2:{ eexists _, _, _, _. split; [reflexivity|]. split; [reflexivity|]. cbn [snd no_stream] in N. repeat split; auto. destruct e; tauto. }
    2:{ eexists _, _, _, _. split; [reflexivity|]. split; [reflexivity|]. repeat split; auto. }
    clear N.
    destruct (split_by_space line 3) as [|method [|path [|protocol [|x q]]]]; try (eexists _, _, _, _; split; [reflexivity|]; split; [reflexivity|]; repeat split; auto; fail).
    destruct (negb _); [eexists _, _, _, _; split; [reflexivity|]; split; [reflexivity|]; repeat split; auto|].
    destruct (read_header false [] s1) as (s2 & [h|e|]) eqn:H.
    2:{ eexists _, _, _, _. split; [reflexivity|]. split; [reflexivity|]. pose proof (header_no_stream (S (Datatypes.length (pending s1))) false [] s1) as N.
        unfold read_header in H. rewrite H in N. cbn [snd no_stream] in N. repeat split; auto. destruct e; tauto. }
    2:{ eexists _, _, _, _. split; [reflexivity|]. split; [reflexivity|]. repeat split; auto. }
    destruct (negb (bytes_eqb method (str "POST"))).
    { destruct (bytes_eqb method (str "HEAD")); eexists _, _, _, _; (split; [reflexivity|]); (split; [reflexivity|]); repeat split; auto; discriminate. }
    destruct (py_choose_out _ _) as (out & chunks).
    destruct (choose_in _ _) as [k|]; [|eexists _, _, _, _; split; [reflexivity|]; split; [reflexivity|]; repeat split; auto].
    destruct (read_content _ _ _ _ _) as (r & [h2|e|]).
    2:{ eexists _, _, _, _; split; [reflexivity|]; split; [reflexivity|]; repeat split; auto. destruct e; auto. }
    2:{ eexists _, _, _, _; split; [reflexivity|]; split; [reflexivity|]; repeat split; auto. }
    destruct (pu_finish _ _) as (x & [[]|e|]).
    - eexists _, _, _, _; split; [reflexivity|]; split; [reflexivity|]; repeat split; auto.
    - eexists _, _, _, _; split; [reflexivity|]; split; [reflexivity|]; repeat split; auto. destruct e; auto.
    - eexists _, _, _, _; split; [reflexivity|]; split; [reflexivity|]; repeat split; auto.
  Qed.

  Definition py_alike (c d : pconn (W:=W)) : Prop :=
    py_visible c = py_visible d /\ ps_own (pc_srv c) = ps_own (pc_srv d) /\ ps_ver (pc_srv c) = ps_ver (pc_srv d) /\ ps_close (pc_srv c) = ps_close (pc_srv d).

  Lemma py_send_same : forall a b d f, ps_own a = ps_own b -> ps_ver a = ps_ver b -> ps_close a = ps_close b -> ps_out a = ps_out b -> ps_chunks a = ps_chunks b ->
    exists x y o, py_send cfg cut a d f = (x, o) /\ py_send cfg cut b d f = (y, o) /\ ps_own x = ps_own y /\ ps_ver x = ps_ver y /\ ps_close x = ps_close y.
  Proof.
    intros a b d f E V C O K. unfold py_send. rewrite <- E, <- O, <- K. eexists _, _, _. split; [reflexivity|]. split; [reflexivity|]. cbn. auto.
  Qed.

  Lemma py_one_same : forall c d, py_head_refused cfg -> py_visible c = py_visible d -> ps_own (pc_srv c) = ps_own (pc_srv d) -> ps_ver (pc_srv c) = ps_ver (pc_srv d) ->
    let x := py_serve_one message own host cfg ums mars reason cut added g client c in let y := py_serve_one message own host cfg ums mars reason cut added g client d in
    snd x = snd y /\ (py_visible (fst x) = py_visible (fst y)) /\ (forall k, snd x = Pnext k -> py_alike (fst x) (fst y)).
  Proof.
    intros [a s w wire] [b s' w' wire'] HR P E V. unfold py_visible in P. cbn in P, E, V. injection P as <- <- <-. cbv zeta. unfold py_serve_one. cbn [pc_srv pc_sock pc_world pc_wire].
    destruct (py_before cfg w) as (w1 & [x|]); [split; [reflexivity|]; split; [reflexivity|discriminate]|].
    destruct (py_read_same a b s E V) as (x & y & s1 & r & -> & -> & X & VE & CL & HD & R).
    destruct r as [t|e|]; [| |split; [reflexivity|]; split; [reflexivity|discriminate]].
    - unfold py_handle. rewrite <- HD, <- VE, <- X. destruct (ps_is_head x) eqn:HX.
      + destruct (pf_head cfg) as [f|] eqn:G; [|split; [reflexivity|]; split; [reflexivity|discriminate]].
        pose proof (HR f w1 G) as N. destruct (f w1) as (w2 & [v|thr|]); cbn [snd] in N; try (split; [reflexivity|]; split; [reflexivity|discriminate]).
        destruct (as_long v) as [z|]; [|split; [reflexivity|]; split; [reflexivity|discriminate]].
        destruct (z =? 0) eqn:Z0; [apply Z.eqb_eq in Z0; congruence|]. split; [reflexivity|]; split; [reflexivity|discriminate].
      + destruct (R eq_refl) as (RO & RC). rewrite <- RO. destruct (3 <? v_major (ps_ver x)); [split; [reflexivity|]; split; [reflexivity|discriminate]|].
        assert (S: forall p q, ps_own p = ps_own q -> ps_ver p = ps_ver q -> ps_close p = ps_close q -> ps_out p = ps_out q -> ps_chunks p = ps_chunks q -> forall w2 o (m : marshalled),
          let F := fun st => let '(st2, sent) := py_send cfg cut st o (done m) in
              match m with
              | Mar_done => (mkPConn st2 s1 w2 (wire ++ sent), Pnext true)
              | Mar_raised => (mkPConn st2 s1 w2 (wire ++ sent ++ py_error_text reason HTTP_INTERNAL_SERVER_ERROR), Pstop)
              | Mar_failed Undef => (mkPConn st2 s1 w2 (wire ++ sent), Pend Sv_undef)
              | Mar_failed (Exn (StreamError _)) => (mkPConn st2 s1 w2 (wire ++ sent), Pend (Sv_raise PE_Runtime))
              | Mar_failed (Exn (HTTPError code)) => (mkPConn st2 s1 w2 (wire ++ sent ++ py_error_text reason code), Pstop)
              | Mar_failed (Exn (ProtocolError n)) => (mkPConn st2 s1 w2 (wire ++ sent), Pend (Sv_protocol n))
              | Mar_failed (Exn _) => (mkPConn st2 s1 w2 (wire ++ sent), Pend Sv_abort)
              end in
          snd (F p) = snd (F q) /\ py_visible (fst (F p)) = py_visible (fst (F q)) /\ (forall k, snd (F p) = Pnext k -> py_alike (fst (F p)) (fst (F q)))).
        { intros p q A1 A2 A3 A4 A5 w2 o m. destruct (py_send_same p q o (done m) A1 A2 A3 A4 A5) as (x2 & y2 & o2 & E1 & E2 & B1 & B2 & B3). cbv beta zeta. rewrite E1, E2.
          destruct m as [| |[[]|]]; (split; [reflexivity|]); (split; [reflexivity|]); intros k Q; try discriminate Q; repeat split; assumption. }
        destruct (pb_object t) as [[]|]; destruct (pb_method t) as [name|]; try (split; [reflexivity|]; split; [reflexivity|discriminate]);
          destruct (dispatch_call own g client w1 (c_string name) (py_params own t)) as (w2 & [v| |]); try (split; [reflexivity|]; split; [reflexivity|discriminate]);
          destruct (py_marshal _ _) as (oo & mm); cbv beta zeta in S; apply S; cbn; auto.
    - destruct e; try (split; [reflexivity|]; split; [reflexivity|discriminate]).
      destruct R as (RO & RC). rewrite <- VE, <- RO. destruct (3 <? v_major (ps_ver x)); [split; [reflexivity|]; split; [reflexivity|discriminate]|].
      destruct (py_marshal _ _) as (o & m). destruct (py_send_same x y o (done m) X VE CL RO RC) as (x2 & y2 & o2 & -> & -> & B1 & B2 & B3).
      split; [reflexivity|]. split; [reflexivity|]. intros k Q. repeat split; assumption.
  Qed.

  Lemma py_loop_same : forall fuel n c d, py_head_refused cfg -> py_visible c = py_visible d -> ps_own (pc_srv c) = ps_own (pc_srv d) -> ps_ver (pc_srv c) = ps_ver (pc_srv d) ->
    let x := py_serve_loop message own host cfg ums mars reason cut added g client fuel n c in let y := py_serve_loop message own host cfg ums mars reason cut added g client fuel n d in
    snd x = snd y /\ py_visible (fst x) = py_visible (fst y).
  Proof.
    cbv zeta. induction fuel as [|fuel IH]; intros n c d HR P E V; [auto|]. cbn [py_serve_loop].
    destruct (py_one_same c d HR P E V) as (K & Q & A).
    destruct (py_serve_one message own host cfg ums mars reason cut added g client c) as (c1 & k1), (py_serve_one message own host cfg ums mars reason cut added g client d) as (d1 & k2). cbn [fst snd] in *. subst k2.
    destruct k1 as [counted| |x]; [|auto|auto]. destruct (A counted eq_refl) as (_ & A1 & A2 & A3). rewrite <- A3. destruct (_ || _ || _); [auto|]. apply IH; assumption.
  Qed.
End PyReuse.
