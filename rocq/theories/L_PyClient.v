(** Lemmas about the Python client: sending, reading responses, what comes of a call. *)
From Coq Require Import Lia.
From Verif Require Import Base Value Text Unicode M_Marshal M_BinUnmarshal M_TreeBuilder M_Base64 M_Iso M_Url M_Http M_HttpIO M_HttpWriter M_Registry M_Server M_Client
  M_Python M_PyRegistry M_PyServer M_PyClient
  S_Value S_Http S_Registry S_Server S_Client S_Python S_PyRegistry S_PyServer S_PyClient L_Base L_Http L_HttpIO L_HttpIO2 L_HttpIO3 L_HttpIO4 L_HttpIO5 L_HttpWriter L_Registry P_HttpIO P_HttpWriter
  L_Server L_Server2 L_Server4 L_Client L_Client2 L_Client3 L_Python L_PyText L_PyRegistry L_PyServer.

(** * Sending *)
Lemma send_data_threw : forall watch d tries o e, send_data watch d tries = (o, Send_threw e) -> e = ResponseError \/ exists c, e = ProtocolError c.
Proof.
  intros watch d tries o e. unfold send_data. destruct d as [|b d]; [discriminate|]. generalize (b :: d). clear b d. intro d. revert d o.
  induction tries as [|t r IH]; intros d o H; [discriminate|]. cbn [send_loop] in H. destruct t as [| |readable sent epipe]; [inversion H; eauto..|].
  destruct (watch && readable); [inversion H; auto|]. destruct sent as [n|]; [|destruct (watch && epipe); inversion H; eauto].
  destruct (_ =? 0); [eauto|]. destruct (_ =? 0); [discriminate|]. destruct (send_loop _ _ r) as [o2 e2] eqn:E. inversion H; subst. eauto.
Qed.
Lemma send_pieces_threw : forall pieces tries o e, send_pieces pieces tries = (o, Send_threw e) -> e = ResponseError \/ exists c, e = ProtocolError c.
Proof.
  induction pieces as [|[w d] r IH]; intros tries o e H; [discriminate|]. cbn [send_pieces] in H. destruct (send_data w d (hd [] tries)) as [o1 e1] eqn:E1.
  destruct e1; [|inversion H; subst; eapply send_data_threw; eauto|discriminate]. destruct (send_pieces r (tl tries)) as [o2 e2] eqn:E2. inversion H; subst. eauto.
Qed.

Section Sending.
  Variable keep : bool.
  Variable net_ : net.
  Variable head : Z -> bytes.
  Variable fd0 : option bytes.

  (** The connection and what went over it; [wire] is what was to be sent. *)
  Inductive linked (n : sending) : Prop :=
  | linked_idle : w_sent (n_wr n) = false -> w_wire (n_wr n) = [] -> n_fd n = fd0 -> n_events n = [] -> linked n
  | linked_busy : forall rest es bs, w_sent (n_wr n) = true -> connect_socket keep net_ fd0 = (Some rest, es, Ok tt) -> n_fd n = Some rest ->
      n_events n = es ++ map Ev_send bs -> concat bs = w_wire (n_wr n) -> linked n.
  Inductive stopped (wire : bytes) (n : sending) : going -> Prop :=
  | stopped_connect : forall es c, connect_socket keep net_ fd0 = (None, es, Err (HTTPError c)) -> n_fd n = None -> n_events n = es -> stopped wire n (Go_threw (HTTPError c))
  | stopped_failed : forall rest es bs lost c, connect_socket keep net_ fd0 = (Some rest, es, Ok tt) -> n_fd n = None -> n_events n = es ++ map Ev_send bs ++ [Ev_close] ->
      wire = concat bs ++ lost -> stopped wire n (Go_threw (ProtocolError c))
  | stopped_read : forall rest es bs lost, connect_socket keep net_ fd0 = (Some rest, es, Ok tt) -> n_fd n = Some rest -> n_events n = es ++ map Ev_send bs ->
      wire = concat bs ++ lost -> stopped wire n Go_read
  | stopped_wait : forall rest es bs lost, connect_socket keep net_ fd0 = (Some rest, es, Ok tt) -> n_fd n = Some rest -> n_events n = es ++ map Ev_send bs ->
      wire = concat bs ++ lost -> stopped wire n Go_wait.
  Lemma stopped_more : forall wire more n g, stopped wire n g -> stopped (wire ++ more) n g.
  Proof.
    intros wire more n g [es c A B C|rest es bs lost c A B C D|rest es bs lost A B C D|rest es bs lost A B C D]; subst.
    - eapply stopped_connect; eauto.
    - eapply stopped_failed; eauto. rewrite <- app_assoc. reflexivity.
    - eapply stopped_read; eauto. rewrite <- app_assoc. reflexivity.
    - eapply stopped_wait; eauto. rewrite <- app_assoc. reflexivity.
  Qed.

  Lemma wr_send_wire : forall last w, exists t, w_wire (wr_send head last w) = w_wire w ++ t /\ t = (
    (if w_sent w then [] else head (w_total w)) ++
    if w_chunks w then hex_text (blen (w_back w)) ++ crlf ++ w_back w ++ (if last then crlf ++ str "0" ++ crlf ++ crlf else crlf)
    else concat (w_front w) ++ w_back w).
  Proof. intros last w. unfold wr_send. destruct (w_chunks w); cbn [w_wire]; eexists; (split; [reflexivity|]); [rewrite <- ?app_assoc; reflexivity|reflexivity]. Qed.
  Lemma wr_send_sent : forall last w, w_sent (wr_send head last w) = true /\ w_chunks (wr_send head last w) = w_chunks w.
  Proof. intros last w. unfold wr_send. destruct (w_chunks w); auto. Qed.

  Lemma send_request_spec : forall last n n' g, linked n -> send_request keep net_ head last n = (n', g) ->
    match g with
    | Go => n_wr n' = wr_send head last (n_wr n) /\ linked n'
    | g => stopped (w_wire (wr_send head last (n_wr n))) n' g
    end.
  Proof.
    intros last n n' g HL H. unfold send_request in H.
    set (w := n_wr n) in *. set (h := if w_sent w then [] else head (w_total w)) in *.
    set (pieces := if w_chunks w then _ else _) in *.
    assert (HP : w_wire (wr_send head last w) = w_wire w ++ concat (map snd pieces)).
    { destruct (wr_send_wire last w) as (t & -> & ->). f_equal. unfold pieces, h. destruct (w_chunks w); cbn [map snd concat]; [rewrite app_nil_r; reflexivity|].
      rewrite to_send_text. reflexivity. }
    assert (HC : exists bs0 rest0 es0,
      (let '(fd, es, x) := if w_sent w then (n_fd n, [], Ok tt) else connect_socket keep net_ (n_fd n) in
       (exists c, w_sent w = false /\ x = Err (HTTPError c) /\ fd = None /\ connect_socket keep net_ fd0 = (None, es, Err (HTTPError c)) /\ n_events n = []) \/
       (x = Ok tt /\ connect_socket keep net_ fd0 = (Some rest0, es0, Ok tt) /\ fd = Some rest0 /\ n_events n ++ es = es0 ++ map Ev_send bs0 /\ concat bs0 = w_wire w))).
    { destruct HL as [A B C D|rest es bs A B C D E]; fold w in A; rewrite A.
      - fold w in B. rewrite C, D, B. destruct (connect_socket keep net_ fd0) as [[fd es] x] eqn:EC. pose proof EC as HS. apply connect_spec in HS as (_ & _ & _ & HS).
        destruct HS as [(-> & rest & -> & _)|(c & -> & ->)].
        + exists [], rest, es. right. cbn [map app]. rewrite app_nil_r. auto 8.
        + exists [], [], es. left. exists c. auto 8.
      - exists bs, rest, es. right. rewrite C, D, app_nil_r. auto 8. }
    destruct HC as (bs0 & rest0 & es0 & HC).
    destruct (if w_sent w then (n_fd n, [], Ok tt) else connect_socket keep net_ (n_fd n)) as [[fd es] x].
    destruct HC as [(c & HW & -> & -> & HC & HE)|(-> & HC & -> & HE & HB)].
    - inversion H; subst. eapply stopped_connect; cbn [n_fd n_events]; [exact HC|reflexivity|rewrite HE; reflexivity].
    - destruct (send_pieces pieces (n_rest n)) as [b e] eqn:ES. destruct (send_pieces_spec _ _ _ _ ES) as [(lost & HT) HA].
      assert (HEV : n_events n ++ es ++ [Ev_send b] = es0 ++ map Ev_send (bs0 ++ [b])) by (rewrite app_assoc, HE, map_app, <- app_assoc; reflexivity).
      assert (HW : w_wire (wr_send head last w) = concat (bs0 ++ [b]) ++ lost).
      { etransitivity; [exact HP|]. etransitivity; [exact (f_equal (app (w_wire w)) HT)|]. rewrite concat_app, HB. cbn [concat]. rewrite app_nil_r, app_assoc. reflexivity. }
      destruct e as [|ex|].
      + inversion H; subst n' g. cbn [n_wr]. split; [reflexivity|]. eapply linked_busy; cbn [n_wr n_fd n_events].
        * apply wr_send_sent.
        * exact HC.
        * reflexivity.
        * exact HEV.
        * rewrite HW. specialize (HA eq_refl). rewrite HA in HT. rewrite <- (app_nil_r (concat (map snd pieces))) in HT at 1. apply app_inv_head in HT. rewrite <- HT, app_nil_r. reflexivity.
      + destruct (send_pieces_threw _ _ _ _ ES) as [->|(c & ->)]; inversion H; subst n' g.
        * eapply stopped_read; cbn [n_fd n_events]; eauto.
        * eapply stopped_failed; cbn [n_fd n_events]; eauto. rewrite HEV, <- app_assoc. reflexivity.
      + inversion H; subst n' g. eapply stopped_wait; cbn [n_fd n_events]; eauto.
  Qed.

  Lemma wr_write_wire : forall d w, exists t, w_wire (wr_write head d w) = w_wire w ++ t.
  Proof.
    intros d w. unfold wr_write. destruct (_ <? _); [|exists []; cbn [w_wire]; rewrite app_nil_r; reflexivity].
    destruct (w_chunks w) eqn:EC; [|destruct (_ <? _); exists []; cbn [w_wire]; rewrite app_nil_r; reflexivity].
    cbn [w_wire]. destruct (wr_send_wire false (mkWr (w_front w) (w_back w) true (w_sent w) (u32 (w_total w + blen d)) (w_wire w))) as (t & E & _). exists t. exact E.
  Qed.
  Lemma wr_write_plain : forall d w, (u64 (BUFFER_SIZE - blen (w_back w)) <? blen d) && w_chunks w = false ->
    w_wire (wr_write head d w) = w_wire w /\ w_sent (wr_write head d w) = w_sent w.
  Proof.
    intros d w H. unfold wr_write. destruct (u64 _ <? _); [|auto]. cbn [andb] in H. rewrite H. destruct (_ <? _); auto.
  Qed.
  Lemma wr_writes_wire : forall l w, exists t, w_wire (fold_left (fun x d => wr_write head d x) l w) = w_wire w ++ t.
  Proof.
    induction l as [|d r IH]; intro w; [exists []; cbn; rewrite app_nil_r; reflexivity|]. cbn [fold_left]. destruct (IH (wr_write head d w)) as (t & ->).
    destruct (wr_write_wire d w) as (t1 & ->). exists (t1 ++ t). rewrite app_assoc. reflexivity.
  Qed.

  Lemma send_write_spec : forall d n n' g, linked n -> send_write keep net_ head d n = (n', g) ->
    match g with
    | Go => n_wr n' = wr_write head d (n_wr n) /\ linked n'
    | g => stopped (w_wire (wr_write head d (n_wr n))) n' g
    end.
  Proof.
    intros d n n' g HL H. unfold send_write in H. set (w := n_wr n) in *. set (w1 := mkWr _ _ _ _ _ _) in *.
    destruct ((u64 (BUFFER_SIZE - blen (w_back w)) <? blen d) && w_chunks w) eqn:EC.
    - assert (EW : w_wire (wr_write head d w) = w_wire (wr_send head false w1) /\ w_sent (wr_write head d w) = true).
      { apply andb_true_iff in EC as [EC1 EC2]. unfold wr_write. rewrite EC1, EC2. cbn [w_wire w_sent]. unfold w1. rewrite EC2. split; [reflexivity|]. reflexivity. }
      destruct EW as [EW ES].
      destruct (send_request keep net_ head false (mkSending w1 (n_fd n) (n_events n) (n_rest n))) as [n1 g1] eqn:E. apply send_request_spec in E.
      + cbn [n_wr] in E. destruct g1; try (inversion H; subst n' g; rewrite EW; exact E). inversion H; subst n' g. cbn [n_wr]. split; [reflexivity|].
        destruct E as [EN [A B C D|rest es bs A B C D F]]; [exfalso; rewrite EN in A; destruct (wr_send_sent false w1) as [X _]; congruence|].
        eapply linked_busy; cbn [n_wr n_fd n_events]; eauto. rewrite EW, F, EN. reflexivity.
      + destruct HL as [A B C D|rest es bs A B C D F]; [apply linked_idle; auto|eapply linked_busy; eauto].
    - inversion H; subst n' g. cbn [n_wr]. split; [reflexivity|]. destruct (wr_write_plain d w EC) as [E1 E2].
      destruct HL as [A B C D|rest es bs A B C D F]; fold w in A.
      + fold w in B. apply linked_idle; cbn [n_wr n_fd n_events]; congruence.
      + fold w in F. eapply linked_busy; cbn [n_wr n_fd n_events]; eauto; congruence.
  Qed.
  Lemma send_writes_spec : forall l n n' g, linked n -> send_writes keep net_ head l n = (n', g) ->
    match g with
    | Go => n_wr n' = fold_left (fun x d => wr_write head d x) l (n_wr n) /\ linked n'
    | g => stopped (w_wire (fold_left (fun x d => wr_write head d x) l (n_wr n))) n' g
    end.
  Proof.
    induction l as [|d r IH]; intros n n' g HL H; cbn [send_writes fold_left] in *; [inversion H; subst; auto|].
    destruct (send_write keep net_ head d n) as [n1 g1] eqn:E. apply send_write_spec in E; [|exact HL].
    destruct g1; try (inversion H; subst n' g; destruct (wr_writes_wire r (wr_write head d (n_wr n))) as (t & ->); apply stopped_more; exact E).
    destruct E as [E1 E2]. apply IH in H; [|exact E2]. rewrite E1 in H. exact H.
  Qed.
End Sending.
