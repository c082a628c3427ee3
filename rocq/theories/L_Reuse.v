(** Proofs: what a server object answers does not depend on what it served before. *)
From Coq Require Import Lia.
From Verif Require Import Base Value Text M_Marshal M_BinUnmarshal M_TreeBuilder M_Base64 M_Url M_Http M_HttpIO M_HttpWriter M_Registry M_Server L_Base S_Reuse.

Definition no_stream {A} (r : res A) : Prop := match r with Err (StreamError _) => False | _ => True end.
Lemma line_no_stream : forall fuel c l o f acc s, no_stream (snd (read_line_loop fuel c l o f acc s)).
Proof.
  induction fuel as [|fuel IH]; intros; [exact I|]. cbn [read_line_loop]. destruct (pending s) as [|x p].
  - cbn [snd]. destruct (fin s); [destruct (f && o)|destruct o|]; exact I.
  - destruct (find_char 10 _).
    + destruct (_ && _ && _); exact I.
    + destruct (_ && _ && _); [exact I|]. apply IH.
Qed.
Lemma header_no_stream : forall fuel o h s, no_stream (snd (read_header_loop fuel o h s)).
Proof.
  induction fuel as [|fuel IH]; intros; [exact I|]. cbn [read_header_loop]. unfold read_line_opt.
  pose proof (line_no_stream (S (Datatypes.length (pending s))) false (-1) o true [] s) as L. destruct (read_line_loop _ _ _ _ _ _ _) as (s1 & [line|e|]); cbn [sbind snd] in *; [|destruct e; auto|exact I].
  destruct line as [|b line]; [exact I|]. destruct (get_header_value _) as [([|n ns] & v)|]; [destruct h; [exact I|apply IH]|apply IH|exact I].
Qed.

Section Reuse.
  Context {W : Type}.
  Variable message : exn -> bytes.
  Variable cfg : config.
  Variable ums : in_type -> unmarshaller.
  Variable mars : out_type -> version -> marshaller.
  Variable reason : Z -> bytes.
  Variable cut : bytes -> list bytes.
  Variable added : W -> header.
  Variable g : registry (W:=W).

  (** The header pointer of the second may be the one of an earlier connection. *)
  Variable allow : bool.
  Definition extras (x y : extra) : Prop := x = y \/ (allow = true /\ x = No_header /\ y = Old_header).
  Lemma extras_same : forall x, extras x x.
  Proof. left. reflexivity. Qed.

  (** Two states after the same request was read. *)
  Definition after_read (a b : srv) (r : res tb) : Prop :=
    extras (s_extra a) (s_extra b) /\ s_close a = s_close b /\ s_head a = s_head b /\
    match r with
    | Err (StreamError _) => s_out a = s_out b /\ s_chunks a = s_chunks b
    | Ok _ => s_head a = false -> s_out a = s_out b /\ s_chunks a = s_chunks b /\ s_ver a = s_ver b
    | _ => True
    end.

  Lemma read_request_same : forall a b s, extras (s_extra a) (s_extra b) ->
    exists x y s1 r, read_request cfg ums a s = (x, s1, r) /\ read_request cfg ums b s = (y, s1, r) /\ after_read x y r.
  Proof.
    intros a b s E. unfold read_request.
    destruct (read_line_opt true (-1) true s) as (s1 & [line|e|]) eqn:L.
    2:{ eexists _, _, _, _. split; [reflexivity|]. split; [reflexivity|]. pose proof (line_no_stream (S (Datatypes.length (pending s))) true (-1) true true [] s) as N.
        unfold read_line_opt in L. rewrite L in N. cbn [snd no_stream] in N. repeat split; auto. destruct e; tauto. }
    2:{ eexists _, _, _, _. split; [reflexivity|]. split; [reflexivity|]. repeat split; auto. }
    destruct line as [|c line]; [eexists _, _, _, _; split; [reflexivity|]; split; [reflexivity|]; repeat split; auto|].
    destruct (split_by_space (c :: line) 3) as [|method [|path [|protocol [|x q]]]]; try (eexists _, _, _, _; split; [reflexivity|]; split; [reflexivity|]; repeat split; auto; fail).
    destruct (negb _); [eexists _, _, _, _; split; [reflexivity|]; split; [reflexivity|]; repeat split; auto|].
    destruct (read_header false [] s1) as (s2 & [h|e|]) eqn:H.
    2:{ eexists _, _, _, _. split; [reflexivity|]. split; [reflexivity|]. pose proof (header_no_stream (S (Datatypes.length (pending s1))) false [] s1) as N.
        unfold read_header in H. rewrite H in N. cbn [snd no_stream] in N. repeat split; auto. destruct e; tauto. }
    2:{ eexists _, _, _, _. split; [reflexivity|]. split; [reflexivity|]. repeat split; auto. }
    destruct (negb (bytes_eqb method (str "POST"))).
    { destruct (bytes_eqb method (str "HEAD")); eexists _, _, _, _; (split; [reflexivity|]); (split; [reflexivity|]); repeat split; auto; discriminate. }
    destruct (choose_out _ _) as (out & chunks).
    destruct (choose_in _ _) as [k|]; [|eexists _, _, _, _; split; [reflexivity|]; split; [reflexivity|]; repeat split; auto].
    destruct (read_content _ _ _ _ _) as (r & [h2|e|]).
    2:{ eexists _, _, _, _; split; [reflexivity|]; split; [reflexivity|]; repeat split; auto. destruct e; auto. }
    2:{ eexists _, _, _, _; split; [reflexivity|]; split; [reflexivity|]; repeat split; auto. }
    destruct (um_finish _ _) as (x & [[]|e|]).
    - eexists _, _, _, _; split; [reflexivity|]; split; [reflexivity|]; repeat split; auto.
    - eexists _, _, _, _; split; [reflexivity|]; split; [reflexivity|]; repeat split; auto. destruct e; auto.
    - eexists _, _, _, _; split; [reflexivity|]; split; [reflexivity|]; repeat split; auto.
  Qed.

  Lemma send_same : forall a b w d f, extras (s_extra a) (s_extra b) -> s_out a = s_out b -> s_chunks a = s_chunks b -> s_close a = s_close b ->
    (allow = true /\ snd (send_answer cfg cut added b w d f) = UB) \/
    exists x y o r, send_answer cfg cut added a w d f = (x, o, r) /\ send_answer cfg cut added b w d f = (y, o, r) /\ extras (s_extra x) (s_extra y) /\ s_close x = s_close y.
  Proof.
    intros a b w d f E O C L. unfold send_answer.
    assert (H: match s_extra b with This_header => added w | _ => [] end = match s_extra a with This_header => added w | _ => [] end)
      by (destruct E as [<-|(_ & -> & ->)]; reflexivity). rewrite H, <- O, <- C. clear H.
    destruct (w_sent _).
    - destruct E as [E|(A & E & F)].
      + rewrite <- E. right. destruct (s_extra a) eqn:X; eexists _, _, _, _; (split; [reflexivity|]); (split; [reflexivity|]); cbn; split; try (left; congruence); congruence.
      + rewrite F. left. split; [exact A|reflexivity].
    - right. eexists _, _, _, _; split; [reflexivity|]; split; [reflexivity|]; split; assumption.
  Qed.

  (** Two connections alike but for what the server object remembers. *)
  Definition alike (c d : conn (W:=W)) : Prop := visible c = visible d /\ extras (s_extra (c_srv c)) (s_extra (c_srv d)) /\ s_close (c_srv c) = s_close (c_srv d).
  Definition same_or_ub (x y : conn (W:=W) * step_end) : Prop := (allow = true /\ snd y = Raised UB) \/ (snd x = snd y /\ alike (fst x) (fst y)).

  Lemma after_same : forall a b s w log wire x k, extras (s_extra a) (s_extra b) -> s_out a = s_out b -> s_chunks a = s_chunks b -> s_close a = s_close b ->
    same_or_ub (after_answer cfg reason cut added a s w log wire x k) (after_answer cfg reason cut added b s w log wire x k).
  Proof.
    intros a b s w log wire x k E O C L. unfold after_answer. destruct (send_same a b (o_world x) (o_bytes x) (o_flushed x) E O C L) as [(A & U)|(p & q & o & r & -> & -> & X & Y)].
    { left. split; [exact A|]. destruct (send_answer cfg cut added b _ _ _) as ((st & o) & r). cbn [snd] in U. subst r. reflexivity. }
    right. destruct r as [[]|e|]; [|split; [reflexivity|]; repeat split; assumption|split; [reflexivity|]; repeat split; assumption].
    destruct (o_end x) as [[]|[]|]; (split; [reflexivity|]); repeat split; assumption.
  Qed.

  Lemma serve_one_same : forall c d, head_refused g -> visible c = visible d -> extras (s_extra (c_srv c)) (s_extra (c_srv d)) ->
    same_or_ub (serve_one message cfg ums mars reason cut added g c) (serve_one message cfg ums mars reason cut added g d).
  Proof.
    intros [a s w log wire] [b s' w' log' wire'] HR V E. unfold visible in V. cbn in V, E. injection V as <- <- <- <-. unfold serve_one. cbn [c_srv c_sock c_world c_log c_wire].
    destruct (read_request_same a b s E) as (x & y & s1 & r & -> & -> & X & CL & HD & R).
    destruct r as [t|e|]; [| |right; split; [reflexivity|]; repeat split; assumption].
    - cbn [s_head]. rewrite <- HD. destruct (s_head x) eqn:HX.
      + right. destruct (g_head g) as [f|] eqn:G; [|split; [reflexivity|]; repeat split; first [apply extras_same|assumption]].
        pose proof (HR f w G) as N. destruct (f w) as (w2 & ok). cbn [snd] in N. subst ok. split; [reflexivity|]. repeat split; first [apply extras_same|assumption].
      + destruct (R eq_refl) as (RO & RC & RV). cbn [s_ver]. rewrite <- RV. cbn [s_out s_chunks s_close].
        assert (AS: forall n p, same_or_ub (after_answer cfg reason cut added {| s_out := s_out x; s_chunks := s_chunks x; s_ver := s_ver x; s_close := s_close x; s_head := false; s_extra := This_header |} s1 w log wire
              (answer message (mars (s_out x) (s_ver x)) g w n p) (Next true))
             (after_answer cfg reason cut added {| s_out := s_out y; s_chunks := s_chunks y; s_ver := s_ver x; s_close := s_close y; s_head := false; s_extra := This_header |} s1 w log wire
              (answer message (mars (s_out y) (s_ver x)) g w n p) (Next true))).
        { intros n p. rewrite <- RO, <- RC, <- CL. apply after_same; auto. apply extras_same. }
        destruct (tb_root t); try (right; split; [reflexivity|]; repeat split; first [apply extras_same|assumption]);
          (destruct (bind (tb_data t) as_array); [destruct (3 <? v_major (s_ver x)); [right; split; [reflexivity|]; repeat split; first [apply extras_same|assumption]|apply AS]
            |right; split; [reflexivity|]; repeat split; first [apply extras_same|assumption]|right; split; [reflexivity|]; repeat split; first [apply extras_same|assumption]]).
    - destruct e; try (right; split; [reflexivity|]; repeat split; assumption).
      destruct R as (RO & RC); rewrite <- RO.
      match goal with |- context [after_answer _ _ _ _ x ?s1 ?w ?log ?wire ?ans ?k] => pose proof (after_same x y s1 w log wire ans k X RO RC CL) as P end.
      destruct (after_answer cfg reason cut added x _ _ _ _ _ _) as (c1 & k1), (after_answer cfg reason cut added y _ _ _ _ _ _) as (c2 & k2). destruct P as [(A & P)|(P & Q)]; cbn [fst snd] in *.
      + left. split; [exact A|]. subst k2. reflexivity.
      + subst k2. right. destruct k1; cbn [fst snd]; auto.
  Qed.

  Lemma serve_loop_same : forall fuel n c d, head_refused g -> visible c = visible d -> extras (s_extra (c_srv c)) (s_extra (c_srv d)) ->
    (allow = true /\ snd (serve_loop message cfg ums mars reason cut added g fuel n d) = UB) \/
    (snd (serve_loop message cfg ums mars reason cut added g fuel n c) = snd (serve_loop message cfg ums mars reason cut added g fuel n d) /\
     visible (fst (serve_loop message cfg ums mars reason cut added g fuel n c)) = visible (fst (serve_loop message cfg ums mars reason cut added g fuel n d))).
  Proof.
    induction fuel as [|fuel IH]; intros n c d HR V E; [auto|]. cbn [serve_loop].
    destruct (serve_one_same c d HR V E) as [(A & U)|(K & V' & E' & C')].
    { left. split; [exact A|]. destruct (serve_one message cfg ums mars reason cut added g d) as (d1 & k2). cbn [snd] in U. subst k2. reflexivity. }
    destruct (serve_one message cfg ums mars reason cut added g c) as (c1 & k1), (serve_one message cfg ums mars reason cut added g d) as (d1 & k2). cbn [fst snd] in *. subst k2.
    destruct k1 as [counted| |x]; [|auto|auto]. rewrite <- C'. destruct (_ || _ || _); [auto|]. apply IH; assumption.
  Qed.

  Lemma serve_state : forall a b s w, head_refused g -> s_extra a = No_header -> (allow = false -> s_extra b = No_header) ->
    (allow = true /\ snd (serve message cfg ums mars reason cut added g b s w) = UB) \/
    (snd (serve message cfg ums mars reason cut added g a s w) = snd (serve message cfg ums mars reason cut added g b s w) /\
     visible (fst (serve message cfg ums mars reason cut added g a s w)) = visible (fst (serve message cfg ums mars reason cut added g b s w))).
  Proof. intros a b s w HR E F. unfold serve. apply serve_loop_same; [exact HR|reflexivity|]. cbn [c_srv s_extra]. rewrite E. destruct (s_extra b) eqn:X; [left; reflexivity|right|right];
    (split; [|auto]); destruct allow; auto; discriminate (F eq_refl). Qed.
End Reuse.
