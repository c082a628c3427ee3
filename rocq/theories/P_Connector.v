(** Properties of the connectors: C69, C70. *)
From Coq Require Import Lia ZifyBool.
From Verif Require Import Base Value L_Base M_BinUnmarshal Text M_Iso M_Url M_Http M_HttpIO M_Marshal M_TreeBuilder M_Base64 M_HttpWriter M_Registry M_Server M_Client
  M_Connector S_Http S_Registry S_Server S_Client S_Connector L_Http L_Url L_UrlText L_Client L_Client2.

Lemma open_app : forall a b o, open_after o (a ++ b) = match open_after o a with Some o' => open_after o' b | None => None end.
Proof. induction a as [|e a IH]; intros b o; [reflexivity|]. cbn. destruct (sys_step o e); [apply IH|reflexivity]. Qed.

Lemma open_new : forall s, open_after [] [Sys_socket s] = Some [s].
Proof. reflexivity. Qed.
Lemma open_conn : forall s a, open_after [s] [Sys_connect s a] = Some [s].
Proof. intros. cbn. rewrite Z.eqb_refl. reflexivity. Qed.
Lemma open_close : forall s, open_after [s] [Sys_close s] = Some [].
Proof. intros. cbn. rewrite Z.eqb_refl. cbn. reflexivity. Qed.

(** All the ways a connect can end. *)
Inductive ends (a : address) (keep : bool) (o : os) (fd : Z) : Z -> list sys -> res unit -> Prop :=
| ends_kept : 0 <= fd -> keep = true -> ~ peer_gone o -> ends a keep o fd fd [] (Ok tt)
| ends_new : forall e s, (fd = -1 /\ e = [] \/ 0 <= fd /\ (keep = false \/ peer_gone o) /\ e = [Sys_close fd]) -> o_socket o = Some s -> completes o ->
    ends a keep o fd s (e ++ [Sys_socket s; Sys_connect s a]) (Ok tt)
| ends_fail : forall e s e2, (fd = -1 /\ e = [] \/ 0 <= fd /\ (keep = false \/ peer_gone o) /\ e = [Sys_close fd]) ->
    o_socket o = Some s /\ (e2 = [Sys_socket s] \/ e2 = [Sys_socket s; Sys_connect s a]) ->
    ends a keep o fd (-1) (e ++ e2 ++ [Sys_close s]) (Err (HTTPError HTTP_SYSCALL))
| ends_none : forall e, (fd = -1 /\ e = [] \/ 0 <= fd /\ (keep = false \/ peer_gone o) /\ e = [Sys_close fd]) -> o_socket o = None ->
    ends a keep o fd (-1) e (Err (HTTPError HTTP_SYSCALL))
| ends_left : forall s e2, 0 <= fd -> keep = true -> peer_gone o -> o_socket o = Some s ->
    (e2 = [Sys_socket s] \/ e2 = [Sys_socket s; Sys_connect s a]) ->
    ends a keep o fd s (Sys_close fd :: e2) (Err (HTTPError HTTP_SYSCALL)).

Definition at_end (a : address) (keep : bool) (o : os) (fd : Z) (x : Z * list sys * res unit) : Prop := ends a keep o fd (fst (fst x)) (snd (fst x)) (snd x).

Lemma connect_ends : forall tcp a keep o fd, kernel_ok o -> -1 <= fd -> at_end a keep o fd (connect_sys tcp a keep o fd).
Proof.
  intros tcp a keep [pl pk so nb nd co wa gs st] fd K L. red in K. cbn in K. unfold connect_sys, close_if_peer_closed, throws. cbn [o_poll o_peek o_socket o_nonblock o_nodelay o_connect o_wait o_getsockopt o_status].
  assert (D : fd = -1 \/ 0 <= fd) by lia.
  destruct D as [->|P].
  - (* no old socket *)
    replace (-1 <? -1) with false by reflexivity. rewrite andb_false_r. cbn [negb]. replace (0 <=? -1) with false by reflexivity.
    set (o := mkOs pl pk so nb nd co wa gs st).
    destruct so as [s|].
    + specialize (K s eq_refl). replace (-1 <? s) with true by lia. cbn [andb].
      destruct nb; [|exact (ends_fail a keep o (-1) [] s [Sys_socket s] (or_introl (conj eq_refl eq_refl)) (conj eq_refl (or_introl eq_refl)))]. cbn [negb].
      destruct tcp, nd; cbn [andb negb];
      try exact (ends_fail a keep o (-1) [] s [Sys_socket s] (or_introl (conj eq_refl eq_refl)) (conj eq_refl (or_introl eq_refl)));
      (destruct co; [exact (ends_new a keep o (-1) [] s (or_introl (conj eq_refl eq_refl)) eq_refl (or_introl eq_refl))|
         |exact (ends_fail a keep o (-1) [] s [Sys_socket s; Sys_connect s a] (or_introl (conj eq_refl eq_refl)) (conj eq_refl (or_intror eq_refl)))];
       destruct wa; try exact (ends_fail a keep o (-1) [] s [Sys_socket s; Sys_connect s a] (or_introl (conj eq_refl eq_refl)) (conj eq_refl (or_intror eq_refl)));
       destruct gs, st; cbn [andb]; try exact (ends_fail a keep o (-1) [] s [Sys_socket s; Sys_connect s a] (or_introl (conj eq_refl eq_refl)) (conj eq_refl (or_intror eq_refl)));
       exact (ends_new a keep o (-1) [] s (or_introl (conj eq_refl eq_refl)) eq_refl (or_intror (conj eq_refl (conj eq_refl (conj eq_refl eq_refl)))))).
    + exact (ends_none a keep o (-1) [] (or_introl (conj eq_refl eq_refl)) eq_refl).
  - replace (-1 <? fd) with true by lia. rewrite andb_true_r.
    destruct keep; cbn [negb].
    + (* kept alive *)
      replace (-1 <? fd) with true by lia. cbn [negb].
      set (o := mkOs pl pk so nb nd co wa gs st).
      assert (G : peer_gone o \/ ~ peer_gone o /\ (match pl with Poll_none => (fd, []) | Poll_ready => match pk with Recv_data => (fd, []) | _ => (-1, [Sys_close fd]) end | Poll_error => (-1, [Sys_close fd]) end) = (fd, [])).
      { unfold peer_gone. cbn. destruct pl, pk; try (right; split; [intros [?|(? & N)]; try discriminate; now apply N|reflexivity]);
          left; try (now left); right; split; try reflexivity; discriminate. }
      destruct G as [G|(G & ->)].
      2:{ replace (0 <=? fd) with true by lia. exact (ends_kept a true o fd P eq_refl G). }
      assert (E : (match pl with Poll_none => (fd, []) | Poll_ready => match pk with Recv_data => (fd, []) | _ => (-1, [Sys_close fd]) end | Poll_error => (-1, [Sys_close fd]) end) = (-1, [Sys_close fd])).
      { destruct G as [G|(G & N)]; cbn in *; subst pl; [reflexivity|]. destruct pk; [now elim N|reflexivity|reflexivity]. }
      rewrite E. replace (0 <=? -1) with false by reflexivity. cbn [app andb].
      pose (side := or_intror (conj P (conj (or_intror G) eq_refl)) : fd = -1 /\ [Sys_close fd] = [] \/ 0 <= fd /\ (true = false \/ peer_gone o) /\ [Sys_close fd] = [Sys_close fd]).
      destruct so as [s|]; [|exact (ends_none a true o fd [Sys_close fd] side eq_refl)].
      destruct nb; [|exact (ends_left a true o fd s [Sys_socket s] P eq_refl G eq_refl (or_introl eq_refl))]. cbn [negb].
      destruct tcp, nd; cbn [andb negb];
      try exact (ends_left a true o fd s [Sys_socket s] P eq_refl G eq_refl (or_introl eq_refl));
      (destruct co; [exact (ends_new a true o fd [Sys_close fd] s side eq_refl (or_introl eq_refl))|
         |exact (ends_left a true o fd s [Sys_socket s; Sys_connect s a] P eq_refl G eq_refl (or_intror eq_refl))];
       destruct wa; try exact (ends_left a true o fd s [Sys_socket s; Sys_connect s a] P eq_refl G eq_refl (or_intror eq_refl));
       destruct gs, st; cbn [andb]; try exact (ends_left a true o fd s [Sys_socket s; Sys_connect s a] P eq_refl G eq_refl (or_intror eq_refl));
       exact (ends_new a true o fd [Sys_close fd] s side eq_refl (or_intror (conj eq_refl (conj eq_refl (conj eq_refl eq_refl)))))).
    + (* not kept alive *)
      replace (-1 <? -1) with false by reflexivity. replace (0 <=? -1) with false by reflexivity. cbn [negb andb app].
      set (o := mkOs pl pk so nb nd co wa gs st).
      pose (side := or_intror (conj P (conj (or_introl eq_refl) eq_refl)) : fd = -1 /\ [Sys_close fd] = [] \/ 0 <= fd /\ (false = false \/ peer_gone o) /\ [Sys_close fd] = [Sys_close fd]).
      destruct so as [s|]; [|exact (ends_none a false o fd [Sys_close fd] side eq_refl)].
      specialize (K s eq_refl). replace (-1 <? s) with true by lia.
      destruct nb; [|exact (ends_fail a false o fd [Sys_close fd] s [Sys_socket s] side (conj eq_refl (or_introl eq_refl)))]. cbn [negb].
      destruct tcp, nd; cbn [andb negb];
      try exact (ends_fail a false o fd [Sys_close fd] s [Sys_socket s] side (conj eq_refl (or_introl eq_refl)));
      (destruct co; [exact (ends_new a false o fd [Sys_close fd] s side eq_refl (or_introl eq_refl))|
         |exact (ends_fail a false o fd [Sys_close fd] s [Sys_socket s; Sys_connect s a] side (conj eq_refl (or_intror eq_refl)))];
       destruct wa; try exact (ends_fail a false o fd [Sys_close fd] s [Sys_socket s; Sys_connect s a] side (conj eq_refl (or_intror eq_refl)));
       destruct gs, st; cbn [andb]; try exact (ends_fail a false o fd [Sys_close fd] s [Sys_socket s; Sys_connect s a] side (conj eq_refl (or_intror eq_refl)));
       exact (ends_new a false o fd [Sys_close fd] s side eq_refl (or_intror (conj eq_refl (conj eq_refl (conj eq_refl eq_refl)))))).
Qed.

Lemma request_ends : forall tcp a keep o fd, kernel_ok o -> -1 <= fd ->
  forall fd' es r, request_connect tcp a keep o fd = (fd', es, r) ->
  (exists e', ends a keep o fd fd' es r /\ (r <> Ok tt -> fd' = -1) /\ e' = es) \/
  (exists s e2, 0 <= fd /\ keep = true /\ peer_gone o /\ o_socket o = Some s /\ (e2 = [Sys_socket s] \/ e2 = [Sys_socket s; Sys_connect s a]) /\
     fd' = -1 /\ es = Sys_close fd :: e2 ++ [Sys_close s] /\ r = Err (HTTPError HTTP_SYSCALL)).
Proof.
  intros tcp a keep o fd K L fd' es r H. unfold request_connect in H. pose proof (connect_ends tcp a keep o fd K L) as E. unfold at_end in E.
  destruct (connect_sys tcp a keep o fd) as [[f e] x]. cbn [fst snd] in E.
  inversion E; subst.
  - inversion H; subst. left. eexists. split; [exact E|]. split; [congruence|reflexivity].
  - inversion H; subst. left. eexists. split; [exact E|]. split; [congruence|reflexivity].
  - replace (-1 <? -1) with false in H by reflexivity. inversion H; subst. left. eexists. split; [exact E|]. split; reflexivity.
  - replace (-1 <? -1) with false in H by reflexivity. inversion H; subst. left. eexists. split; [exact E|]. split; reflexivity.
  - assert (P : 0 <= f) by (apply K; assumption). replace (-1 <? f) with true in H by lia. inversion H; subst. right. exists f, e2.
    repeat (split; [assumption || reflexivity|]). reflexivity.
Qed.

Lemma ends_open : forall a keep o fd fd' es r, kernel_ok o -> ends a keep o fd fd' es r -> -1 <= fd' /\ open_after (remembered fd) es = Some (remembered fd').
Proof.
  intros a keep o fd fd' es r K E.
  assert (R : forall x, 0 <= x -> remembered x = [x]) by (intros x X; unfold remembered; replace (x =? -1) with false by lia; reflexivity).
  assert (R0 : remembered (-1) = []) by reflexivity.
  assert (O : forall e, (fd = -1 /\ e = [] \/ 0 <= fd /\ (keep = false \/ peer_gone o) /\ e = [Sys_close fd]) -> open_after (remembered fd) e = Some []).
  { intros e [(-> & ->)|(P & _ & ->)]; [reflexivity|]. rewrite R by assumption. apply open_close. }
  destruct E as [P KE NG|e s H SO C|e s e2 H (SO & E2)|e H SO|s e2 P KE G SO E2].
  - split; [lia|reflexivity].
  - assert (P : 0 <= s) by (apply K; assumption). split; [lia|]. rewrite open_app, (O _ H), R by assumption. cbn. rewrite Z.eqb_refl. reflexivity.
  - split; [lia|]. rewrite open_app, (O _ H). destruct E2 as [-> | ->]; cbn; rewrite !Z.eqb_refl; cbn; rewrite ?Z.eqb_refl; cbn; reflexivity.
  - split; [lia|]. rewrite (O _ H). reflexivity.
  - assert (PS : 0 <= s) by (apply K; assumption). split; [lia|]. change (Sys_close fd :: e2) with ([Sys_close fd] ++ e2).
    rewrite open_app, !R, open_close by assumption. destruct E2 as [-> | ->]; cbn; rewrite ?Z.eqb_refl; reflexivity.
Qed.

Lemma history_open : forall (connect : bool -> os -> Z -> Z * list sys * res unit),
  (forall keep o fd fd' es r, kernel_ok o -> -1 <= fd -> connect keep o fd = (fd', es, r) -> -1 <= fd' /\ open_after (remembered fd) es = Some (remembered fd')) ->
  forall l fd, Forall (fun x => kernel_ok (snd x)) l -> -1 <= fd ->
  forall fd' rs, history connect fd l = (fd', rs) -> open_after (remembered fd) (all_calls rs) = Some (remembered fd').
Proof.
  intros connect S. induction l as [|(keep, o) l IH]; intros fd F L fd' rs H; cbn in H; [inversion H; subst; reflexivity|].
  inversion F; subst. destruct (connect keep o fd) as [[f e] x] eqn:E. destruct (S keep o fd f e x H2 L E) as (L1 & O).
  destruct (history connect f l) as (f2, rs2) eqn:E2. inversion H; subst. unfold all_calls. cbn [flat_map r_calls]. rewrite open_app, O. exact (IH f H3 L1 _ _ E2).
Qed.

(** ** C69 *)
(** However the system calls end, every socket a connector opens is closed exactly once or is the one still remembered;
    the same when the client uses it. *)
Theorem C69_descriptors : forall tcp a l fd rs, Forall (fun x => kernel_ok (snd x)) l ->
  (history (connect_sys tcp a) (-1) l = (fd, rs) -> open_after [] (all_calls rs) = Some (remembered fd)) /\
  (history (request_connect tcp a) (-1) l = (fd, rs) -> open_after [] (all_calls rs) = Some (remembered fd)).
Proof.
  intros tcp a l fd rs F. split; intro H; change (@nil Z) with (remembered (-1)).
  - eapply history_open; [|exact F|lia|exact H]. intros keep o f f' es r K L E. pose proof (connect_ends tcp a keep o f K L) as X. unfold at_end in X. rewrite E in X. cbn in X.
    eapply ends_open; eassumption.
  - eapply history_open; [|exact F|lia|exact H]. intros keep o f f' es r K L E. destruct (request_ends _ _ _ _ _ K L _ _ _ E) as [(e' & X & _)|(s & e2 & P & _ & _ & SO & E2 & -> & -> & _)].
    + eapply ends_open; eassumption.
    + split; [lia|]. assert (PS : 0 <= s) by (apply K; assumption). change (Sys_close f :: e2 ++ [Sys_close s]) with ([Sys_close f] ++ e2 ++ [Sys_close s]).
      unfold remembered. replace (f =? -1) with false by lia. rewrite open_app, open_close. destruct E2 as [-> | ->]; cbn; repeat (rewrite !Z.eqb_refl; cbn); reflexivity.
Qed.
Print Assumptions C69_descriptors.

Lemma established_more : forall a fd rs r, established a fd rs -> ~ In (Sys_close fd) (r_calls r) -> established a fd (rs ++ [r]).
Proof.
  intros a fd rs r (b & x & c & m & -> & A & B & D & E) N. exists b, x, (c ++ [r]), m. split; [now rewrite <- app_assoc|]. split; [assumption|]. split; [assumption|].
  split; [assumption|]. unfold all_calls in *. rewrite flat_map_app. intro I. apply in_app_or in I. destruct I as [I|I]; [exact (E I)|]. cbn in I. rewrite app_nil_r in I. exact (N I).
Qed.

Lemma history_app : forall connect l1 l2 fd, history connect fd (l1 ++ l2) =
  let '(f, r1) := history connect fd l1 in let '(f2, r2) := history connect f l2 in (f2, r1 ++ r2).
Proof.
  induction l1 as [|(k, o) l1 IH]; intros l2 fd; cbn.
  - destruct (history connect fd l2). reflexivity.
  - destruct (connect k o fd) as [[f e] x]. rewrite IH. destruct (history connect f l1) as (g, r1). destruct (history connect g l2). reflexivity.
Qed.

(** The client never uses a socket that is not connected: what it remembers was connected, to this address, in some round
    and not closed since, and after an exception it remembers nothing. *)
Theorem C69_client : forall tcp a l fd rs, Forall (fun x => kernel_ok (snd x)) l -> history (request_connect tcp a) (-1) l = (fd, rs) ->
  fd = -1 \/ (0 <= fd /\ established a fd rs).
Proof.
  intros tcp a l. induction l as [|(keep, o) l IH] using rev_ind; intros fd rs F H; [cbn in H; inversion H; now left|].
  rewrite history_app in H. apply Forall_app in F. destruct F as (F1 & F2). inversion F2; subst. clear F2 H3. cbn [snd] in H2.
  destruct (history (request_connect tcp a) (-1) l) as (f, r1) eqn:E. specialize (IH f r1 F1 eq_refl).
  cbn [history] in H. destruct (request_connect tcp a keep o f) as [[f2 es] x] eqn:E2. inversion H; subst. clear H.
  assert (L : -1 <= f) by (destruct IH as [-> |(P & _)]; lia).
  destruct (request_ends _ _ _ _ _ H2 L _ _ _ E2) as [(e' & X & N & _)|(s & e2 & _ & _ & _ & _ & _ & -> & _)]; [|now left].
  inversion X; subst; try (now left).
  - right. split; [assumption|]. apply established_more; [|cbn; tauto]. destruct IH as [-> |(P & Y)]; [lia|exact Y].
  - right. split; [apply H2; assumption|]. exists r1, (mkRound keep o (e ++ [Sys_socket fd; Sys_connect fd a]) (Ok tt)), [], e.
    split; [reflexivity|]. split; [reflexivity|]. split; [assumption|]. split; [reflexivity|]. cbn. tauto.
  - rewrite (N ltac:(discriminate)). now left.
Qed.
Print Assumptions C69_client.

Definition fine_os (s : Z) : os := mkOs Poll_none Recv_data (Some s) true true Connect_pending Poll_ready true true.
(** The peer has closed the connection and a new one is not made in time. *)
Definition late_os (s : Z) : os := mkOs Poll_ready Recv_end (Some s) true true Connect_pending Poll_none true true.

Example C69_sample : forall a, exists fd rs,
  history (request_connect true a) (-1) [(true, fine_os 5); (true, fine_os 6); (true, late_os 7); (true, fine_os 8); (false, fine_os 9)] = (fd, rs) /\ fd = 9 /\
  all_calls rs = [Sys_socket 5; Sys_connect 5 a; Sys_close 5; Sys_socket 7; Sys_connect 7 a; Sys_close 7; Sys_socket 8; Sys_connect 8 a; Sys_close 8; Sys_socket 9; Sys_connect 9 a].
Proof. intro a. eexists _, _. split; [reflexivity|]. split; reflexivity. Qed.

(** A connector used alone does not give this: after a connection that was lost and could not be made again in time, it
    remembers the new, unconnected socket, and the next connect reports success without connecting. *)
Theorem C69_connector_refuted : exists a fd rs, history (connect_sys true a) (-1) [(true, fine_os 5); (true, late_os 6); (true, fine_os 7)] = (fd, rs) /\
  map r_end rs = [Ok tt; Err (HTTPError HTTP_SYSCALL); Ok tt] /\ fd = 6 /\ ~ established a fd rs.
Proof.
  exists (Inet 0). eexists _, _. split; [reflexivity|]. split; [reflexivity|]. split; [reflexivity|].
  intros (b & r & c & m & E & A & C & D & N). 
  destruct b as [|r1 b]; [inversion E; subst; cbn in A|]. { destruct m as [|? [|? [|? ?]]]; discriminate. }
  destruct b as [|r2 b]; [inversion E; subst; discriminate|].
  destruct b as [|r3 b]; [inversion E; subst; cbn in A; destruct m as [|? ?]; discriminate|]. inversion E. destruct b; discriminate.
Qed.
Print Assumptions C69_connector_refuted.

(** A connection of which the peer is gone is not used again: it is closed and, if the connect returns, a new one was
    made. *)
Theorem C69_reconnects : forall tcp a keep o fd fd' es r, kernel_ok o -> 0 <= fd -> keep = false \/ peer_gone o ->
  request_connect tcp a keep o fd = (fd', es, r) ->
  exists more, es = Sys_close fd :: more /\ (r = Ok tt -> more = [Sys_socket fd'; Sys_connect fd' a] /\ completes o).
Proof.
  intros tcp a keep o fd fd' es r K P G H. assert (L : -1 <= fd) by lia.
  assert (S : forall e, (fd = -1 /\ e = [] \/ 0 <= fd /\ (keep = false \/ peer_gone o) /\ e = [Sys_close fd]) -> e = [Sys_close fd]) by (intros e [(? & _)|(_ & _ & ->)]; [lia|reflexivity]).
  destruct (request_ends _ _ _ _ _ K L _ _ _ H) as [(e' & X & _)|(s & e2 & _ & _ & _ & _ & _ & _ & -> & ->)]; [|eexists; split; [reflexivity|discriminate]].
  inversion X; subst.
  - exfalso. destruct G as [G|G]; [discriminate|tauto].
  - rewrite (S _ H0). eexists. split; [reflexivity|]. intros _. split; [reflexivity|assumption].
  - rewrite (S _ H0). eexists. split; [reflexivity|]. discriminate.
  - rewrite (S _ H0). eexists. split; [reflexivity|]. discriminate.
  - eexists. split; [reflexivity|]. discriminate.
Qed.
Print Assumptions C69_reconnects.
Example C69_reconnects_sample : forall a, request_connect true a true (mkOs Poll_ready Recv_end (Some 6) true true Connect_done Poll_ready true true) 5 = (6, [Sys_close 5; Sys_socket 6; Sys_connect 6 a], Ok tt).
Proof. reflexivity. Qed.

(** The client model ([connect_socket] of M_Client) is this one seen from outside: the same outcome, the same socket held,
    the same connections closed and made (a socket that could not be connected is not shown). *)
Definition made (o : os) (tcp : bool) : Prop :=
  (exists s, o_socket o = Some s) /\ o_nonblock o = true /\ (tcp = true -> o_nodelay o = true) /\ completes o.
Definition shown (fd : Z) (es : list sys) (r : res unit) : list sock_event :=
  match es with Sys_close x :: _ => if x =? fd then [Ev_close] else [] | _ => [] end ++
  match r with Ok _ => if existsb (fun e => match e with Sys_socket _ => true | _ => false end) es then [Ev_connect] else [] | _ => [] end.

Theorem C69_agrees : forall tcp a keep o n fd rest fd' es r, kernel_ok o -> -1 <= fd ->
  (n_peek n = Peek_closed <-> peer_gone o) -> (n_connect n = true <-> made o tcp) ->
  request_connect tcp a keep o fd = (fd', es, r) ->
  connect_socket keep n (if fd =? -1 then None else Some rest) =
    (if fd' =? -1 then None else Some (if existsb (fun e => match e with Sys_socket _ => true | _ => false end) es then [] else rest), shown fd es r, r).
Proof.
  intros tcp a keep [pl pk so nb nd co wa gs st] n fd rest fd' es r K L PN CN H. red in K. unfold peer_gone, made, completes in *.
  cbn [o_poll o_peek o_socket o_nonblock o_nodelay o_connect o_wait o_getsockopt o_status] in *.
  assert (C : n_connect n = match so with Some _ => nb && (negb tcp || nd) && match co with Connect_done => true | Connect_pending => match wa with Poll_ready => gs && st | _ => false end | _ => false end | None => false end).
  { destruct (n_connect n) eqn:E.
    - destruct CN as [CN _]. destruct (CN eq_refl) as ((s & ->) & -> & T & M). symmetry. destruct M as [-> |(-> & -> & -> & ->)]; destruct tcp; cbn; rewrite ?T; reflexivity.
    - symmetry. apply not_true_is_false. intro X. destruct CN as [_ CN]. enough (false = true) by discriminate. apply CN. clear CN PN H K.
      destruct so as [s|]; [|discriminate]. split; [eauto|]. destruct nb; [|discriminate]. split; [reflexivity|]. destruct tcp, nd; try discriminate; cbn in X; (split; [try reflexivity; discriminate|]);
        destruct co; try discriminate; auto; destruct wa; try discriminate; destruct gs, st; try discriminate; auto. }
  assert (P : match n_peek n with Peek_closed => true | _ => false end = match pl with Poll_none => false | Poll_error => true | Poll_ready => match pk with Recv_data => false | _ => true end end).
  { destruct PN as [P1 P2]. destruct pl; [| |].
    - destruct (n_peek n); try reflexivity. destruct (P1 eq_refl) as [?|(? & ?)]; discriminate.
    - destruct pk; [| |].
      + destruct (n_peek n); try reflexivity. destruct (P1 eq_refl) as [?|(? & N)]; [discriminate|now elim N].
      + rewrite P2; [reflexivity|]. right. split; [reflexivity|discriminate].
      + rewrite P2; [reflexivity|]. right. split; [reflexivity|discriminate].
    - rewrite P2; [reflexivity|]. now left. }
  clear PN CN. unfold connect_socket. rewrite C. clear C.
  unfold request_connect, connect_sys, close_if_peer_closed, throws in H. cbn [o_poll o_peek o_socket o_nonblock o_nodelay o_connect o_wait o_getsockopt o_status] in H.
  assert (D : fd = -1 \/ 0 <= fd) by lia. destruct D as [-> |PF].
  - replace (-1 <? -1) with false in H by reflexivity. rewrite andb_false_r in H. cbn [negb] in H. replace (0 <=? -1) with false in H by reflexivity. replace (-1 =? -1) with true by reflexivity.
    destruct so as [s|].
    + specialize (K s eq_refl). replace (-1 <? s) with true in H by lia. cbn [andb app negb] in H.
      destruct nb, tcp, nd, co, wa, gs, st; cbn in H |- *; inversion H; subst; cbn; try (replace (fd' =? -1) with false by lia); try reflexivity.
    + cbn in H. inversion H; subst. reflexivity.
  - replace (-1 <? fd) with true in H by lia. replace (fd =? -1) with false by lia. rewrite andb_true_r in H.
    assert (R : (fd =? fd) = true) by apply Z.eqb_refl. assert (F : (fd =? -1) = false) by lia. assert (F0 : (0 <=? fd) = true) by lia. assert (F1 : (-1 <? fd) = true) by lia.
    destruct keep; cbn [negb] in H |- *.
    + rewrite F1 in H. cbn [negb] in H.
      destruct (match pl with Poll_none => false | Poll_error => true | Poll_ready => match pk with Recv_data => false | _ => true end end) eqn:PE.
      * assert (Q : n_peek n = Peek_closed) by (destruct (n_peek n); [discriminate|discriminate|reflexivity]). rewrite Q.
        assert (Y : match pl with Poll_none => (fd, []) | Poll_ready => match pk with Recv_data => (fd, []) | _ => (-1, [Sys_close fd]) end | Poll_error => (-1, [Sys_close fd]) end = (-1, [Sys_close fd])) by (destruct pl; [discriminate| |reflexivity]; destruct pk; [discriminate|reflexivity|reflexivity]).
        rewrite Y in H. replace (0 <=? -1) with false in H by reflexivity.
        destruct so as [s|].
        -- specialize (K s eq_refl). assert (S1 : (-1 <? s) = true) by lia. assert (S2 : (s =? -1) = false) by lia.
           clear - H R S1 S2. destruct nb, tcp, nd, co, wa, gs, st; cbn in H |- *; rewrite ?S1 in H; inversion H; subst; cbn; rewrite ?R, ?S2; reflexivity.
        -- cbn in H. inversion H; subst. cbn. rewrite R. reflexivity.
      * assert (Y : match pl with Poll_none => (fd, []) | Poll_ready => match pk with Recv_data => (fd, []) | _ => (-1, [Sys_close fd]) end | Poll_error => (-1, [Sys_close fd]) end = (fd, [])) by (destruct pl; [reflexivity| |discriminate]; destruct pk; [reflexivity|discriminate|discriminate]).
        rewrite Y, F0 in H. inversion H; subst. cbn. rewrite F. destruct (n_peek n); [reflexivity|reflexivity|discriminate].
    + replace (-1 <? -1) with false in H by reflexivity. replace (0 <=? -1) with false in H by reflexivity.
      destruct so as [s|].
      * specialize (K s eq_refl). assert (S1 : (-1 <? s) = true) by lia. assert (S2 : (s =? -1) = false) by lia. cbn [negb andb app] in H. rewrite S1 in H.
        clear - H R S1 S2. destruct nb, tcp, nd, co, wa, gs, st; cbn in H |- *; rewrite ?S1 in H; inversion H; subst; cbn; rewrite ?R, ?S2; reflexivity.
      * cbn in H. inversion H; subst. cbn. rewrite R. reflexivity.
Qed.
Print Assumptions C69_agrees.

(** A call on a connection the server has closed meanwhile, or on one that is not to be kept, is sent on a new connection;
    so is the first call of a proxy. *)
Theorem C69_call : forall ums mars cut callback p n name params p' es e, (forall b, concat (cut b) = b) ->
  call ums mars cut callback p n name params = (p', es, e) -> sends es <> [] ->
  (x_fd p = None -> exists more, es = Ev_connect :: more) /\
  (x_fd p <> None -> n_peek n = Peek_closed \/ a_keep (x_conf p) = false -> exists more, es = Ev_close :: Ev_connect :: more) /\
  (x_fd p <> None -> n_peek n <> Peek_closed -> a_keep (x_conf p) = true -> opened es = 0).
Proof.
  intros ums mars cut callback p n name params p' es e CUT H NE. apply call_cases in H; [|exact CUT].
  assert (S : forall fd es1 more, connect_socket (a_keep (x_conf p)) n (x_fd p) = (Some fd, es1, Ok tt) -> opened more = 0 -> es = es1 ++ more ->
    (x_fd p = None -> exists more, es = Ev_connect :: more) /\
    (x_fd p <> None -> n_peek n = Peek_closed \/ a_keep (x_conf p) = false -> exists more, es = Ev_close :: Ev_connect :: more) /\
    (x_fd p <> None -> n_peek n <> Peek_closed -> a_keep (x_conf p) = true -> opened es = 0)).
  { intros fd es1 more C OM ->. unfold connect_socket in C. destruct (x_fd p) as [l|].
    - destruct (a_keep (x_conf p)); cbn [negb] in C; destruct (n_peek n) eqn:PE; destruct (n_connect n); inversion C; subst; (split; [discriminate|split; [intros _ [?|?]; try discriminate; eexists; reflexivity|intros _ ? ?; try discriminate; try contradiction; exact OM]]).
    - destruct (n_connect n); inversion C; subst. split; [intros _; eexists; reflexivity|]. split; intros NN; now elim NN. }
  destruct H.
  - now elim NE.
  - exfalso. apply NE. unfold connect_socket in H. destruct (x_fd p) as [l|]; [destruct (a_keep (x_conf p)); cbn [negb] in H; destruct (n_peek n)|]; destruct (n_connect n); inversion H; subst; reflexivity.
  - eapply S; [exact H| |reflexivity]. reflexivity.
  - eapply S; [exact H| |reflexivity]. reflexivity.
  - eapply S; [exact H| |reflexivity]. destruct fd; reflexivity.
  - eapply S; [exact H| |reflexivity]. destruct fd; reflexivity.
Qed.
Print Assumptions C69_call.

(** ** C70 *)
Lemma dispatch_inet : forall look text v6 name port, inet_url text v6 name port -> port <> 0 -> ~ In x00 name ->
  exists u, url_parse text = Ok u /\ forall path proxy, connector_address look (mkUrl (u_host u) (u_port u) path proxy (u_ssl u)) =
    match look v6 name (dec port) with Some a => Ok (true, Inet a) | None => Err (HTTPError HTTP_DNS) end.
Proof.
  intros look text v6 name port [scheme host pt pa path v6' name' port' default SC NH BR PT PA] NZ N0.
  assert (HH : (plain_host host /\ (pt = [] \/ ~ In x5d pa)) \/ bracket_host host).
  { destruct NH as [h PH _|a BH]; [left; split; [exact PH|]; destruct BR as [B|B]; [discriminate|exact B]|right; exact BH]. }
  assert (E : exists ssl, url_parse (scheme ++ host ++ pt ++ pa) = Ok (mkUrl host port' path false ssl)).
  { destruct SC as [(SC & ->)|(SC & ->)]; [exists false|exists true].
    - rewrite (parse_good _ Sch_http host pt port' pa path); auto; [|discriminate]. apply scheme_http. exact SC.
    - rewrite (parse_good _ Sch_https host pt port' pa path); auto; [|discriminate]. apply scheme_https. exact SC. }
  destruct E as (ssl & E). exists (mkUrl host port' path false ssl). split; [exact E|]. clear - NH NZ N0. intros path' proxy. unfold connector_address, url_is_unix. cbn [u_host u_port u_ssl].
  replace (port' =? 0) with false by lia. unfold inet_address. cbn [u_host u_port].
  destruct NH as [h PH NE|a BH].
  - destruct h as [|c r]; [now elim NE|].
    assert (V : is_char 93 (last (c :: r) x00) = false).
    { destruct (exists_last (l := c :: r) ltac:(discriminate)) as (l & x & EL). rewrite EL, last_last. destruct (PH x) as (_ & _ & Q); [rewrite EL; apply in_or_app; right; now left|].
      apply not_true_is_false. intro Y. apply Q. unfold is_char in Y. apply Z.eqb_eq in Y. apply b2z_inj. exact Y. }
    rewrite V, andb_false_r. rewrite c_str_id. 2:{ rewrite Forall_forall. intros x I Y. apply N0. replace x00 with x; [exact I|]. apply b2z_inj. exact Y. }
    destruct (look false (c :: r) (dec port')); reflexivity.
  - assert (V : is_char 93 (last (x5b :: a ++ [x5d]) x00) = true) by (rewrite app_comm_cons, last_last; reflexivity).
    rewrite V. replace (is_char 91 x5b) with true by reflexivity. cbn [andb].
    assert (T : ztake (blen (x5b :: a ++ [x5d]) - 2) (zdrop 1 (x5b :: a ++ [x5d])) = a).
    { change (zdrop 1 (x5b :: a ++ [x5d])) with (a ++ [x5d]). unfold ztake, blen. cbn [length]. rewrite app_length. cbn [length].
      replace (Z.to_nat (Z.of_nat (S (length a + 1)) - 2)) with (length a) by lia. apply firstn_app_exact || (rewrite firstn_app, Nat.sub_diag, firstn_all, app_nil_r; reflexivity). }
    rewrite T. rewrite c_str_id. 2:{ rewrite Forall_forall. intros x I Y. apply N0. replace x00 with x; [exact I|]. apply b2z_inj. exact Y. }
    destruct (look true a (dec port')); reflexivity.
Qed.

Definition to_address (a : address) (e : sys) : Prop := match e with Sys_connect _ x => x = a | _ => True end.
Lemma only_address : forall tcp a k o f, Forall (to_address a) (snd (fst (request_connect tcp a k o f))).
Proof.
  intros tcp a k o f. assert (C : Forall (to_address a) (snd (fst (connect_sys tcp a k o f)))).
  { unfold connect_sys.
    assert (E1 : forall (b : bool) g, Forall (to_address a) (snd (if b then (-1, [Sys_close g]) else (g, [])))) by (intros [] g; cbn; repeat constructor).
    assert (T : forall arm s es, Forall (to_address a) es -> Forall (to_address a) (snd (fst (throws arm s es)))).
    { intros arm s es F. unfold throws. destruct (arm && (-1 <? s)); cbn; [apply Forall_app; split; [exact F|repeat constructor]|exact F]. }
    specialize (E1 (negb k && (-1 <? f)) f). destruct (if negb k && (-1 <? f) then (-1, [Sys_close f]) else (f, [])) as (f1, e1). cbn [snd] in E1.
    assert (E2 : Forall (to_address a) (snd (if -1 <? f1 then close_if_peer_closed o f1 else (f1, [])))).
    { destruct (-1 <? f1); [|constructor]. unfold close_if_peer_closed. destruct (o_poll o); [|destruct (o_peek o)|]; repeat constructor. }
    destruct (if -1 <? f1 then close_if_peer_closed o f1 else (f1, [])) as (f2, e2). cbn [snd] in E2.
    destruct (0 <=? f2); [cbn; apply Forall_app; auto|].
    destruct (o_socket o) as [s|]; [|apply T; apply Forall_app; auto].
    assert (F3 : Forall (to_address a) (e1 ++ e2 ++ [Sys_socket s])) by (repeat (apply Forall_app; split); auto; repeat constructor).
    assert (F4 : Forall (to_address a) ((e1 ++ e2 ++ [Sys_socket s]) ++ [Sys_connect s a])) by (apply Forall_app; split; [exact F3|repeat constructor]).
    destruct (negb (o_nonblock o)); [apply T, F3|]. destruct (tcp && negb (o_nodelay o)); [apply T, F3|].
    destruct (o_connect o); [exact F4| |apply T, F4]. destruct (o_wait o); [apply T, F4| |apply T, F4]. destruct (o_getsockopt o && o_status o); [exact F4|apply T, F4]. }
  unfold request_connect. destruct (connect_sys tcp a k o f) as [[f1 es] r]. cbn in C.
  destruct r as [[]| |]; [exact C| |]; (destruct (-1 <? f1); [cbn; apply Forall_app; split; [exact C|repeat constructor]|exact C]).
Qed.

(** A proxy for a URL of a host and a port connects to an address of this host (an IPv6 address if it is in brackets) and
    this port, and to nothing else; with an HTTP proxy configured, to an address of that one.  If the name cannot be
    resolved the constructor throws. *)
Theorem C70_inet_partial : forall look text via v6 name port, 
  (via = [] /\ inet_url text v6 name port) \/ inet_url via v6 name port -> port <> 0 -> ~ In x00 name ->
  exists u number, url_make text via = Ok u /\ dec_number number port /\
    match look v6 name number with
    | Some a => connector_address look u = Ok (true, Inet a) /\
        forall l fd rs, history (request_connect true (Inet a)) (-1) l = (fd, rs) -> forall s x, In (Sys_connect s x) (all_calls rs) -> x = Inet a
    | None => connector_address look u = Err (HTTPError HTTP_DNS)
    end.
Proof.
  intros look text via v6 name port W NZ N0.
  assert (PO : forall a l fd rs, history (request_connect true a) (-1) l = (fd, rs) -> forall s x, In (Sys_connect s x) (all_calls rs) -> x = a).
  { intros a l. generalize (-1). induction l as [|(k, o) l IH]; intros f fd rs H s x I; cbn in H; [inversion H; subst; elim I|].
    destruct (request_connect true a k o f) as [[f1 es] r] eqn:E. destruct (history (request_connect true a) f1 l) as (f2, rs2) eqn:E2. inversion H; subst.
    unfold all_calls in I. cbn [flat_map r_calls] in I. apply in_app_or in I. destruct I as [I|I]; [|exact (IH _ _ _ E2 s x I)]. clear - E I.
    pose proof (only_address true a k o f) as A. rewrite E in A. cbn in A. rewrite Forall_forall in A. exact (A _ I). }
  assert (P1 : forall t, inet_url t v6 name port -> 0 <= port).
  { intros t [scheme host pt pa path v6' name' port' default SC NH BR PT PA]. destruct PT as [|s n D _]; [lia|]. destruct (dec_prefix _ _ D) as (_ & _ & _ & ?). assumption. }
  assert (P0 : 0 <= port) by (destruct W as [(_ & W)|W]; exact (P1 _ W)).
  destruct W as [(-> & W)|W].
  - destruct (dispatch_inet look text v6 name port W NZ N0) as (u & E & D). exists u, (dec port). split; [exact E|]. split; [apply dec_is_number; exact P0|].
    specialize (D (u_path u) (u_proxy u)). destruct u as [h p pa pr ss]. cbn in D. destruct (look v6 name (dec port)); [split; [exact D|]; intros; eapply PO; eassumption|exact D].
  - destruct (dispatch_inet look via v6 name port W NZ N0) as (u & E & D). exists (mkUrl (u_host u) (u_port u) text true (u_ssl u)), (dec port).
    split. { unfold url_make. destruct via; [discriminate E|]. rewrite E. reflexivity. }
    split; [apply dec_is_number; exact P0|].
    rewrite D. destruct (look v6 name (dec port)); [split; [reflexivity|]; intros; eapply PO; eassumption|reflexivity].
Qed.
Print Assumptions C70_inet_partial.

Example C70_inet_sample : forall look, look true (str "::1") (str "8080") = Some 7 ->
  exists u, url_make (str "http://[::1]:8080/a]") [] = Ok u /\ connector_address look u = Ok (true, Inet 7).
Proof. intros look H. eexists. split; [vm_compute; reflexivity|]. unfold connector_address, inet_address. cbn -[dec]. change (dec 8080) with (str "8080"). change (c_str _) with (str "::1"). rewrite H. reflexivity. Qed.

(** A proxy for a UNIX socket connects to exactly this path if it has at most 107 characters. *)
Theorem C70_unix_partial : forall look scheme path, same_name scheme (str "unix://") -> hd_error path = Some x2f -> ~ In x00 path -> blen path <= 107 ->
  exists u, url_make (scheme ++ path) [] = Ok u /\ connector_address look u = Ok (false, Unix path).
Proof.
  intros look scheme path SN HD N0 L. destruct path as [|c r]; [discriminate|]. inversion HD; subst c.
  exists (mkUrl [] 0 (x2f :: r) false false). split.
  - unfold url_make, url_parse. rewrite (scheme_unix scheme (x2f :: r) SN). replace (find_char 47 (x2f :: r)) with (Some 0) by reflexivity.
    change (zdrop 0 (x2f :: r)) with (x2f :: r). cbv zeta.
    assert (F : forall pos, match find_char_from 58 pos (x2f :: r) with
        | Some colon => if colon <? 0 then (ztake colon (x2f :: r), read_dec_u16 (ztake (0 - (colon + 1)) (zdrop (colon + 1) (x2f :: r)))) else (ztake 0 (x2f :: r), 80)
        | None => (ztake 0 (x2f :: r), 80) end = ([], 80) \/ pos < 0).
    { intro pos. destruct (Z_lt_ge_dec pos 0); [now right|left]. destruct (find_char_from 58 pos (x2f :: r)) as [co|] eqn:E; [|reflexivity].
      replace (co <? 0) with false; [reflexivity|]. symmetry. apply Z.ltb_ge. unfold find_char_from in E. destruct (find_char 58 (zdrop pos (x2f :: r))) as [q|] eqn:Q; [|discriminate].
      inversion E; subst. enough (0 <= q) by lia. clear - Q. revert q Q. generalize (zdrop pos (x2f :: r)). intro b; induction b as [|x b IH]; intros q Q; [discriminate|]. cbn [find_char] in Q. destruct (is_char 58 x); [inversion Q; lia|].
      destruct (find_char 58 b) as [z|]; [|discriminate]. assert (q = 1 + z) by (cbn [option_map] in Q; injection Q; intro; subst; reflexivity). specialize (IH _ eq_refl). lia. }
    assert (PZ : forall l q, find_char 93 l = Some q -> 0 <= q).
    { induction l as [|x l IH]; intros q Q; [discriminate|]. cbn [find_char] in Q. destruct (is_char 93 x); [inversion Q; lia|]. destruct (find_char 93 l) as [z|]; [|discriminate]. assert (q = 1 + z) by (cbn [option_map] in Q; injection Q; intro; subst; reflexivity). specialize (IH _ eq_refl). lia. }
    set (pos := match find_char 93 (x2f :: r) with Some i => i | None => 0 end).
    assert (PP : 0 <= pos) by (subst pos; destruct (find_char 93 (x2f :: r)) eqn:Q; [exact (PZ _ _ Q)|lia]).
    destruct (F pos) as [E|?]; [|lia]. rewrite E. reflexivity.
  - unfold connector_address, url_is_unix, unix_address. cbn [u_port u_path]. replace (0 =? 0) with true by reflexivity. do 3 f_equal.
    rewrite c_str_id. 2:{ rewrite Forall_forall. intros x I Y. apply N0. replace x00 with x; [exact I|]. apply b2z_inj. exact Y. }
    unfold ztake, UNIX_PATH_MAX. apply firstn_all2. unfold blen in L. lia.
Qed.
Print Assumptions C70_unix_partial.
Example C70_unix_sample : exists u, url_make (str "unix:///var/run/a:b]") [] = Ok u /\ forall look, connector_address look u = Ok (false, Unix (str "/var/run/a:b]")).
Proof. eexists. split; [vm_compute; reflexivity|]. intro look. vm_compute. reflexivity. Qed.

(** A longer path is cut: the proxy connects to another socket. *)
Theorem C70_long_refuted : forall look path, ~ In x00 path -> 107 < blen path ->
  exists other, connector_address look (mkUrl [] 0 path false false) = Ok (false, Unix other) /\ other = ztake 107 path /\ other <> path.
Proof.
  intros look path N0 L. exists (ztake 107 path). split.
  - unfold connector_address, url_is_unix, unix_address. cbn [u_port u_path]. replace (0 =? 0) with true by reflexivity.
    rewrite c_str_id. 2:{ rewrite Forall_forall. intros x I Y. apply N0. replace x00 with x; [exact I|]. apply b2z_inj. exact Y. } reflexivity.
  - split; [reflexivity|]. intro E. apply (f_equal (@length byte)) in E. unfold ztake, blen in *. rewrite firstn_length in E. lia.
Qed.
Print Assumptions C70_long_refuted.

(** Other URLs that lead elsewhere: port 0 makes a UNIX socket of the path, a UNIX socket as HTTP proxy makes one of the
    target's URL, and without a host the behaviour is undefined. *)
Theorem C70_refuted :
  (exists u, url_make (str "http://example.com:0/tmp/x") [] = Ok u /\ forall look, connector_address look u = Ok (false, Unix (str "/tmp/x"))) /\
  (exists u, url_make (str "http://example.com/") (str "unix:///proxy") = Ok u /\ forall look, connector_address look u = Ok (false, Unix (str "http://example.com/"))) /\
  (exists u, url_make (str "http:///RPC2") [] = Ok u /\ forall look, connector_address look u = UB).
Proof. split; [|split]; eexists; (split; [vm_compute; reflexivity|intro look; vm_compute; reflexivity]). Qed.
Print Assumptions C70_refuted.
