(** C120, C121: the error objects of the Python binding: what they accept, what their text says, which references they keep. *)
From Coq Require Import Lia.
From Verif Require Import Base Value Text M_Python M_PyRegistry M_Netcat M_PyErrors S_PyErrors L_Base L_Text L_Netcat L_PyErrors.

(** An error is made from exactly: a number (not for ResponseError), a string, and one more object or none, by position; these are its
    attributes then, the method being None if it is not given. *)
Theorem C120_arguments : forall k named args o, snd (e_init k named args o) = true <->
  named = false /\ exists c m r, arguments k args c m r /\ is_string m = true /\ (forall x, c = Some x -> is_number x = true).
Proof.
  intros k named args o. unfold e_init. destruct named; [cbn; split; [discriminate|intros [H _]; discriminate H]|].
  assert (N: forall x (c : option eobject), c = Some x -> is_number x = true -> forall y, c = Some y -> is_number y = true) by (intros x c -> H y E; inversion E; subst; exact H).
  destruct k; destruct args as [|a1 [|a2 [|a3 [|a4 l]]]]; cbn [has_code snd]; split; intro H; try discriminate H;
    try (apply andb_prop in H; destruct H as (H1 & H2); split; [reflexivity|]; eexists _, _, _; split; [constructor|]; split; [exact H2|]; eapply N; [reflexivity|exact H1]);
    try (split; [reflexivity|]; eexists _, _, _; split; [constructor|]; split; [exact H|]; discriminate);
    destruct H as (_ & c & m & r & A & S & M); inversion A; subst; rewrite ?S, ?(M _ eq_refl); reflexivity.
Qed.
Print Assumptions C120_arguments.
Theorem C120_attributes : forall k args o c m r, arguments k args c m r ->
  e_message (fst (e_init k false args o)) = Some m /\ (has_code k = true -> e_code (fst (e_init k false args o)) = c) /\
  e_method (fst (e_init k false args o)) = Some (match r with Some x => x | None => E_none end).
Proof. intros k args o c m r A. inversion A; subst; cbn; auto; repeat split; discriminate. Qed.
Print Assumptions C120_attributes.

(** Without a method the text is the class, the number and the message, and determines all three. *)
Theorem C120_plain : forall oi ot k o z i z_id s, has_code k = true -> e_code o = Some (E_int z_id z) -> e_message o = Some (E_str i s) -> (e_method o = None \/ e_method o = Some E_none) ->
  e_repr oi ot k o = T_text (plain_text k z s).
Proof. intros oi ot k o z i z_id s K C M [R|R]; unfold e_repr; rewrite R, C, M; destruct k; try discriminate K; cbn [has_code int_of text_of pb as_text plain_text ename]; rewrite app_nil_l, <- app_assoc; reflexivity. Qed.
Print Assumptions C120_plain.
Theorem C120_response : forall oi ot o i s n, e_message o = Some (E_str i s) -> (e_method o = None \/ e_method o = Some E_none) ->
  e_repr oi ot K_ResponseError o = T_text (plain_text K_ResponseError n s).
Proof. intros oi ot o i s n M [R|R]; unfold e_repr; rewrite R, M; reflexivity. Qed.
Print Assumptions C120_response.
Theorem C120_determines : forall k1 n1 m1 k2 n2 m2, plain_text k1 n1 m1 = plain_text k2 n2 m2 -> k1 = k2 /\ (has_code k1 = true -> n1 = n2) /\ m1 = m2.
Proof. exact plain_inj. Qed.
Print Assumptions C120_determines.

(** With a method whose name and URL are UTF-8 (which those of a proxy are), a note of it follows the message. *)
Theorem C120_method : forall oi ot k o c m i r name url n u z s, has_code k = true -> e_code o = Some (E_int c z) -> e_message o = Some (E_str m s) -> i = E_method r name url ->
  e_method o = Some i -> py_decode false name = Some n -> py_decode false url = Some u ->
  e_repr oi ot k o = T_text (plain_text k z (s ++ method_note n u)).
Proof.
  intros oi ot k o c m i r name url n u z s K C M -> R N U. unfold e_repr. rewrite R, N, U, C, M. destruct k; try discriminate K;
  cbn [has_code int_of text_of pb as_text plain_text ename]; unfold method_note; rewrite <- ?app_assoc; reflexivity.
Qed.
Print Assumptions C120_method.
Theorem C120_response_method : forall oi ot o i r name url n u z s, e_message o = Some (E_str i s) -> e_method o = Some (E_method r name url) ->
  py_decode false name = Some n -> py_decode false url = Some u -> e_repr oi ot K_ResponseError o = T_text (plain_text K_ResponseError z (s ++ method_note n u)).
Proof. intros oi ot o i r name url n u z s M R N U. unfold e_repr. rewrite R, N, U, M. cbn [has_code text_of pb as_text plain_text ename]. unfold method_note. rewrite <- ?app_assoc. reflexivity. Qed.
Print Assumptions C120_response_method.
(** Refuted: with methods the text determines nothing any more: an error with a note in its message looks like one with a method. *)
Theorem C120_method_text_refuted : forall oi ot k z s r name url n u, has_code k = true -> py_decode false name = Some n -> py_decode false url = Some u ->
  e_repr oi ot k (fst (e_init k false [E_int 1 z; E_str 2 s; E_method r name url] e_new)) =
  e_repr oi ot k (fst (e_init k false [E_int 1 z; E_str 2 (s ++ method_note n u)] e_new)).
Proof.
  intros oi ot k z s r name url n u K N U. rewrite (C120_method oi ot k _ 1 2 (E_method r name url) r name url n u z s); auto; try (destruct k; try discriminate K; reflexivity).
  symmetry. apply (C120_plain oi ot k _ z 2 1); auto; try (destruct k; try discriminate K; reflexivity). right. destruct k; try discriminate K; reflexivity.
Qed.
Print Assumptions C120_method_text_refuted.

(** The text never is undefined behaviour if nothing but methods and None is given for the method, whatever else happened to the
    object (also before it was initialised, or with attributes deleted). *)
Theorem C120_defined : forall oi ot k l, Forall (careful k) l -> (forall i, oi i <> PyAbort /\ oi i <> PyUndef) -> (forall x, ot x <> PyAbort /\ ot x <> PyUndef) ->
  e_repr oi ot k (e_run k l) <> T_undefined.
Proof.
  intros oi ot k l F OI OT. pose proof (careful_method k l F) as R. set (o := e_run k l) in *. clearbody o. clear F.
  assert (B: forall c m rest, as_text (pb (match c with Some c => pb (int_of oi c) (fun z => PyOk (udec z ++ ustr ", ")) | None => PyOk [] end) (fun n =>
      pb (text_of ot m) (fun m => PyOk (ustr "<fastrpc." ++ ename k ++ ustr ": " ++ n ++ m ++ rest ++ ustr ">")))) <> T_undefined).
  { intros c m rest. assert (T: text_of ot m <> PyAbort /\ text_of ot m <> PyUndef) by (destruct m; cbn; try apply OT; split; discriminate).
    assert (P: forall n, as_text (pb (text_of ot m) (fun m => PyOk (ustr "<fastrpc." ++ ename k ++ ustr ": " ++ n ++ m ++ rest ++ ustr ">"))) <> T_undefined)
      by (intro n; destruct (text_of ot m); cbn; try discriminate; tauto).
    destruct c as [c|]; [|apply P]. assert (Q: int_of oi c <> PyAbort /\ int_of oi c <> PyUndef) by (destruct c as [| | | |i [] []]; cbn; try apply OI; split; discriminate).
    destruct (int_of oi c); cbn [pb]; try discriminate; try tauto. apply P. }
  unfold e_repr. destruct (e_method o) as [[| | |r name url|]|]; try contradiction R.
  - destruct (has_code k); [destruct (e_code o)|]; destruct (e_message o); try discriminate; first [apply (B (Some _))|apply (B None)].
  - destruct (py_decode false name), (py_decode false url); destruct (has_code k); try (destruct (e_code o)); destruct (e_message o); try discriminate; first [apply (B (Some _))|apply (B None)].
  - destruct (has_code k); [destruct (e_code o)|]; destruct (e_message o); try discriminate; first [apply (B (Some _))|apply (B None)].
Qed.
Print Assumptions C120_defined.
(** Refuted: the constructors accept any object for the method, and the text is undefined behaviour then. *)
Theorem C120_any_method_refuted : forall oi ot k args c m r, arguments k args c m (Some r) -> is_string m = true -> (forall x, c = Some x -> is_number x = true) ->
  ~ method_or_none r -> snd (e_init k false args e_new) = true /\ e_repr oi ot k (e_run k [Do_init false args]) = T_undefined.
Proof.
  intros oi ot k args c m r A S N R. split; [apply C120_arguments; split; [reflexivity|]; exists c, m, (Some r); auto|].
  inversion A; subst; destruct r; cbn in R; try tauto; reflexivity.
Qed.
Print Assumptions C120_any_method_refuted.

(** ** References *)
(** What an error object keeps for good, over any history: the attributes that an initialisation replaced; and for each initialisation
    with a wrong number of arguments it gives back one reference to None that it never took. *)
Theorem C121_exact : forall k l x, kept k l x = references (overwritten k e_new l) x - bad_inits k l * references [E_none] x.
Proof. exact kept_exact. Qed.
Print Assumptions C121_exact.
(** So an object initialised once, with the right number of arguments, keeps nothing and gives back only what it took, whatever is done
    with its attributes afterwards, and whether or not the arguments were accepted. *)
Theorem C121_once : forall k args l x, right_count k args = true -> Forall (fun d => match d with Do_init named _ => named = true | _ => True end) l ->
  kept k (Do_init false args :: l) x = 0.
Proof.
  intros k args l x C F. rewrite C121_exact. cbn [overwritten]. rewrite refs_app.
  assert (Q: forall o, overwritten k o l = []).
  { clear C. induction l as [|d l IH]; intro o; [reflexivity|]. inversion F; subst. cbn [overwritten]. rewrite IH by assumption. rewrite app_nil_r.
    unfold replaced_by. destruct d as [[] a| |]; try discriminate; reflexivity. }
  rewrite Q. unfold bad_inits, replaced_by. cbn [filter good_init bad_init]. rewrite C. cbn [negb].
  assert (W: filter (bad_init k) l = []).
  { clear Q C. induction l as [|d l IH]; [reflexivity|]. inversion F; subst. cbn [filter]. rewrite IH by assumption. destruct d as [[] a| |]; try discriminate; reflexivity. }
  rewrite W. destruct k; cbn; lia.
Qed.
Print Assumptions C121_once.
(** Refuted: every [Fault()] with a wrong number of arguments costs None a reference. *)
Theorem C121_wrong_count_refuted : forall k args, right_count k args = false -> snd (e_init k false args e_new) = false /\ kept k [Do_init false args] E_none = -1.
Proof.
  intros k args C. split.
  - destruct k; destruct args as [|a1 [|a2 [|a3 [|a4 l]]]]; try discriminate C; reflexivity.
  - rewrite C121_exact. cbn [overwritten]. unfold bad_inits, replaced_by. cbn [filter good_init bad_init]. rewrite C. reflexivity.
Qed.
Print Assumptions C121_wrong_count_refuted.
(** Refuted: an error initialised a second time keeps the message and the method of the first for good. *)
Theorem C121_again_refuted : forall k a b c m r, right_count k b = true -> arguments k a c m (Some r) -> m <> r -> (forall x, c = Some x -> x <> m) -> m <> E_none ->
  kept k [Do_init false a; Do_init false b] m = 1.
Proof.
  intros k a b c m r B A N X E. assert (G: right_count k a = true) by (inversion A; reflexivity). rewrite C121_exact. cbn [overwritten]. rewrite !refs_app.
  unfold replaced_by, bad_inits. cbn [filter good_init bad_init]. rewrite G, B. cbn [negb].
  unfold references. assert (Z0: count_occ same_object [E_none] m = 0%nat) by (cbn [count_occ]; destruct (same_object E_none m); [subst; tauto|reflexivity]). rewrite Z0.
  inversion A; subst; cbn [e_act e_init fst has_code e_code e_message e_method e_new pointer app count_occ]; repeat (destruct (same_object _ _); subst; try tauto; try (exfalso; eapply X; eauto; fail)); try reflexivity.
Qed.
Print Assumptions C121_again_refuted.

(** ** Examples *)
Example C120_example : forall oi ot,
  e_repr oi ot K_Fault (e_run K_Fault [Do_init false [E_int 1 500; E_str 2 (ustr "no")]]) = T_text (ustr "<fastrpc.Fault: 500, no>") /\
  e_repr oi ot K_ProtocolError (e_run K_ProtocolError [Do_init false [E_int 1 (-4); E_str 2 (ustr "x"); E_method 3 (str "a.b") (str "http://h:80/")]]) =
    T_text (ustr "<fastrpc.ProtocolError: -4, x [method a.b() @ http://h:80/]>") /\
  e_repr oi ot K_ResponseError (e_run K_ResponseError [Do_init false [E_str 2 (ustr "x"); E_method 3 (str "f") (str "http://h:80/")]; Do_set A_method E_none]) = T_text (ustr "<fastrpc.ResponseError: x>") /\
  e_repr oi ot K_Fault (e_run K_Fault []) = T_attribute_error /\
  e_repr oi ot K_Fault (e_run K_Fault [Do_init false [E_int 1 500; E_str 2 (ustr "no"); E_int 3 7]]) = T_undefined /\
  snd (e_init K_Fault false [E_str 1 (ustr "500"); E_str 2 (ustr "no")] e_new) = false /\ snd (e_init K_Fault true [E_int 1 500; E_str 2 (ustr "no")] e_new) = false.
Proof. intros. vm_compute. repeat split; reflexivity. Qed.
Example C121_example :
  kept K_Fault [Do_init false [E_int 1 500; E_str 2 (ustr "no")]; Do_set A_message (E_str 4 []); Do_del A_code; Do_set A_code (E_int 5 6)] (E_str 2 (ustr "no")) = 0 /\
  kept K_ResponseError [Do_init false []; Do_init false []; Do_init true []] E_none = -1 /\
  Forall (careful K_Fault) [Do_init false [E_int 1 500; E_str 2 (ustr "no"); E_method 3 [] []]; Do_set A_code E_none].
Proof. split; [reflexivity|split; [reflexivity|]]. constructor; [intros c m r A; inversion A; exact I|constructor; [exact I|constructor]]. Qed.
