(** C124: references the builder of Python objects never gives back. *)
From Coq Require Import Lia.
From Verif Require Import Base Value Text M_Marshal M_BinUnmarshal M_Python M_PyRefs S_Events S_PyRefs L_Base L_PyRefs.

(** For all calls as the reader of the binary format makes them (a prefix, too; of a response with at most one value), if no fault message is
    refused by the decoder: when the builder is gone, exactly so many references are left as S_PyRefs.v counts; nothing freed is used. *)
Theorem C124_left_partial : forall pass l, well_nested l -> one_result l -> (forall c m, In (EFault c m) l -> py_decode false m <> None) ->
  exists left, rb_left pass l = (left, None) /\ Z.of_nat (length left) = never_given_back pass None l.
Proof. exact left_exact. Qed.
Print Assumptions C124_left_partial.

(** The same for all bytes of the binary format, read in any pieces, whether they could be read or not. *)
Theorem C124_read_partial : forall pass req pieces u b l f,
  unmarshall_all _ (traced (rb_step pass)) req unm_init (rb_init, []) pieces = (u, (b, l), f) ->
  one_result l -> (forall c m, In (EFault c m) l -> py_decode false m <> None) ->
  match f with None => True | Some f => exists m, f = Exn (StreamError m) end /\
  Z.of_nat (length (give_back (rb_ret b) (rb_held b))) = never_given_back pass None l.
Proof. exact read_exact. Qed.
Print Assumptions C124_read_partial.

(** Nothing is left by a call or a response whose texts are UTF-8 and whose member names are ASCII. *)
Theorem C124_nothing_left : forall pass l, well_nested l -> one_result l ->
  (forall c m, ~ In (EFault c m) l) -> (forall s, In (EString s) l -> py_decode pass s <> None) ->
  (forall k c, In (EMember k) l -> In c k -> b2z c < 128) ->
  rb_left pass l = ([], None).
Proof.
  intros pass l W O F S N. destruct (left_exact pass l W O) as (left & R & L); [intros c m I; exfalso; apply (F c m I)|].
  rewrite nothing_counted in L; auto; [|discriminate]. destruct left; [exact R|cbn in L; lia].
Qed.
Print Assumptions C124_nothing_left.

(** Refuted: every member whose name is UTF-8 but not ASCII costs a reference, whatever their number. *)
Definition null_members (names : list bytes) : list event :=
  [EMethodResponse; EOpenStruct (Z.of_nat (length names))] ++ flat_map (fun k => [EMember k; ENull]) names ++ [ECloseStruct].
Theorem C124_names_refuted : forall pass names, (forall k, In k names -> (exists c, In c k /\ 128 <= b2z c) /\ key_of k <> None) ->
  well_nested (null_members names) /\ exists left, rb_left pass (null_members names) = (left, None) /\ length left = length names.
Proof.
  intros pass names H. assert (W: well_nested (null_members names)) by (apply names_nested; intros k I; destruct (H k I) as ((c & C & _) & _); intro X; subst; destruct C).
  split; [exact W|]. destruct (left_exact pass (null_members names) W) as (left & R & L).
  - apply names_one.
  - intros c m I. exfalso. exact (names_no_fault _ _ _ I).
  - exists left. split; [exact R|]. unfold null_members in L. cbn [app] in L. rewrite names_counted in L; [apply Nat2Z.inj; exact L|]. intros k I. destruct (H k I) as ((c & C & G) & K). split; [|exact K].
    unfold non_ascii. apply existsb_exists. exists c. split; [exact C|]. apply Z.leb_le, G.
Qed.
Print Assumptions C124_names_refuted.
(** Refuted: every fault costs a reference. *)
Theorem C124_fault_refuted : forall pass c msg, py_decode false msg <> None ->
  well_nested [EFault c msg] /\ exists x, rb_left pass [EFault c msg] = ([x], None).
Proof. intros pass c msg D. split; [intro X; discriminate X|]. unfold rb_left. cbn [rb_run rb_step rb_init rb_error]. destruct (py_decode false msg); [|congruence]. eexists. reflexivity. Qed.
Print Assumptions C124_fault_refuted.
(** Refuted: after a text that is not UTF-8 every null costs a reference, whatever their number. *)
Definition bad_then_nulls (n : nat) : list event := [EMethodResponse; EOpenArray (Z.of_nat (S n)); EString [xff]] ++ repeat ENull n ++ [ECloseArray].
Theorem C124_nulls_refuted : forall pass n, well_nested (bad_then_nulls n) /\ exists left, rb_left pass (bad_then_nulls n) = (left, None) /\ length left = n.
Proof.
  intros pass n. assert (W: well_nested (bad_then_nulls n)) by apply nulls_nested. split; [exact W|].
  destruct (left_exact pass (bad_then_nulls n) W) as (left & R & L).
  - apply nulls_one.
  - intros c m I. exfalso. exact (nulls_no_fault _ _ _ I).
  - exists left. split; [exact R|]. apply Nat2Z.inj. rewrite L. apply nulls_counted.
Qed.
Print Assumptions C124_nulls_refuted.

(** Refuted: every further value of a response costs a reference, whatever their number; the reader takes them (example below). *)
Theorem C124_extra_refuted : forall pass n, well_nested (EMethodResponse :: repeat ENull (S n)) /\
  exists left, rb_left pass (EMethodResponse :: repeat ENull (S n)) = (left, None) /\ length left = n.
Proof.
  intros pass n. split; [unfold well_nested; cbn [nest_run nest_step]; rewrite extra_nested; discriminate|].
  apply extra_left.
Qed.
Print Assumptions C124_extra_refuted.

(** Not vacuous: a call with a struct in an array, a name that is not ASCII, and two more parameters. *)
Definition mixed_call : list event :=
  [EMethodCall (str "m"); EOpenArray 2; EInt 1; EOpenStruct 2; EMember [xc3; xa9]; EBool true; EMember (str "b"); ENull; ECloseStruct; ECloseArray; EString (str "x"); ENull].
Example C124_mixed : well_nested mixed_call /\ one_result mixed_call /\ (forall c m, In (EFault c m) mixed_call -> py_decode false m <> None) /\
  never_given_back true None mixed_call = 1 /\ (exists x, rb_left true mixed_call = ([x], None)).
Proof.
  split; [intro X; vm_compute in X; discriminate X|]. split; [exact I|]. split; [|split; [reflexivity|vm_compute; eauto]].
  intros c m H. unfold mixed_call in H. cbn [In] in H. repeat destruct H as [H|H]; try discriminate H; destruct H.
Qed.
Example C124_names_ex : (forall k, In k [[xc3; xa9]; [xc3; xa8; x61]] -> (exists c, In c k /\ 128 <= b2z c) /\ key_of k <> None) /\
  (exists x y, rb_left true (null_members [[xc3; xa9]; [xc3; xa8; x61]]) = ([x; y], None)).
Proof.
  split; [|vm_compute; eauto]. intros k [<-|[<-|[]]]; (split; [exists xc3; split; [left; reflexivity|vm_compute; discriminate]|vm_compute; discriminate]).
Qed.
Example C124_fault_ex : py_decode false (str "no such method") <> None. Proof. vm_compute. discriminate. Qed.
Example C124_nothing_ex : rb_left true [EMethodResponse; EOpenStruct 1; EMember (str "a"); EString (str "x"); ECloseStruct] = ([], None). Proof. reflexivity. Qed.
Example C124_read_ex : exists u b l, unmarshall_all _ (traced (rb_step true)) TYPE_ANY unm_init (rb_init, []) [map z2b [202; 17; 2; 1; 112; 80; 1; 2]; map z2b [195; 169; 96]] = (u, (b, l), None) /\
  l = [EMethodResponse; EOpenStruct 1; EMember [xc3; xa9]; ENull; ECloseStruct] /\ exists x, give_back (rb_ret b) (rb_held b) = [x].
Proof. do 3 eexists. split; [vm_compute; reflexivity|]. split; [vm_compute; reflexivity|]. vm_compute. eauto. Qed.
Example C124_extra_ex : exists u b l, unmarshall_all _ (traced (rb_step true)) TYPE_ANY unm_init (rb_init, []) [map z2b [202; 17; 2; 1; 112; 96; 96; 96]] = (u, (b, l), None) /\
  l = EMethodResponse :: repeat ENull 3 /\ exists x y, give_back (rb_ret b) (rb_held b) = [x; y].
Proof. do 3 eexists. split; [vm_compute; reflexivity|]. split; [vm_compute; reflexivity|]. vm_compute. eauto. Qed.
