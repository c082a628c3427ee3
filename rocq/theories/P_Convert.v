(** C78: containers are converted element by element. *)
From Coq Require Import Lia.
From Verif Require Import Base Value Unicode M_Marshal M_TreeBuilder M_Values M_Convert S_Value S_Wire L_Base L_Dup P_Values P_RoundTrip.

(** ** Specification *)
(** The first element with a key. *)
Fixpoint first_with {A} (k : bytes) (l : list (bytes * A)) : option A :=
  match l with [] => None | (k', a) :: l => if bytes_eqb k k' then Some a else first_with k l end.

(** ** Lemmas *)
Lemma push_spec : forall A (convert : A -> res value) l acc x, push_all convert acc l = Ok x <->
  exists vs, Forall2 (fun a v => convert a = Ok v) l vs /\ x = acc ++ vs.
Proof.
  induction l as [|a l IH]; intros acc x; cbn [push_all].
  - split.
    + intro E. inversion E; subst. exists []. rewrite app_nil_r. auto.
    + intros (vs & F & ->). inversion F; subst. rewrite app_nil_r. reflexivity.
  - destruct (convert a) as [v| |] eqn:C; cbn [bind].
    + rewrite IH. split.
      * intros (vs & F & ->). exists (v :: vs). rewrite <- app_assoc. auto.
      * intros (vs & F & ->). inversion F; subst. exists l'. rewrite <- app_assoc. split; [auto|]. cbn. congruence.
    + split; [discriminate|]. intros (vs & F & _). inversion F; subst. congruence.
    + split; [discriminate|]. intros (vs & F & _). inversion F; subst. congruence.
Qed.

Lemma push_err : forall A (convert : A -> res value) l acc e, push_all convert acc l = Err e <->
  exists l1 a l2, l = l1 ++ a :: l2 /\ Forall (fun a => exists v, convert a = Ok v) l1 /\ convert a = Err e.
Proof.
  induction l as [|a l IH]; intros acc e; cbn [push_all].
  - split; [discriminate|]. intros (l1 & a & l2 & E & _). destruct l1; discriminate.
  - destruct (convert a) as [v| |] eqn:C; cbn [bind].
    + rewrite IH. split.
      * intros (l1 & a' & l2 & -> & F & E). exists (a :: l1), a', l2. split; [reflexivity|]. split; [constructor; eauto|auto].
      * intros (l1 & a' & l2 & EQ & F & E). destruct l1 as [|b l1]; cbn in EQ; inversion EQ; subst; [congruence|]. inversion F; subst. eauto 6.
    + split.
      * intro E. inversion E; subst. exists [], a, l. auto.
      * intros (l1 & a' & l2 & EQ & F & E). destruct l1 as [|b l1]; cbn in EQ; inversion EQ; subst; [congruence|]. inversion F as [|? ? (v & X)]; subst. congruence.
    + split; [discriminate|]. intros (l1 & a' & l2 & EQ & F & E). destruct l1 as [|b l1]; cbn in EQ; inversion EQ; subst; [congruence|].
      inversion F as [|? ? (v & X)]; subst. congruence.
Qed.

Lemma insert_get : forall k (v : value) m k', increasing m ->
  increasing (struct_insert k v m) /\ map_get k' (struct_insert k v m) = match map_get k' m with Some x => Some x | None => if bytes_eqb k' k then Some v else None end.
Proof.
  intros k v m k' I. unfold struct_insert. rewrite map_insert_spec by auto. destruct (map_get k m) as [x|] eqn:G.
  - split; [auto|]. destruct (map_get k' m) eqn:G'; [reflexivity|]. destruct (bytes_eqb k' k) eqn:E; [|reflexivity]. apply bytes_eqb_eq in E. congruence.
  - split; [apply map_set_increasing; auto|]. rewrite map_get_set by auto. destruct (bytes_eqb k' k) eqn:E; [|destruct (map_get k' m); reflexivity].
    apply bytes_eqb_eq in E. subst. rewrite G. reflexivity.
Qed.

Lemma insert_spec : forall A (convert : A -> res value) l m x, increasing m -> insert_all convert m l = Ok x ->
  increasing x /\ Forall (fun ka => exists v, convert (snd ka) = Ok v) l /\
  forall k, map_get k x = match map_get k m with
                          | Some v => Some v
                          | None => match first_with k l with Some a => match convert a with Ok v => Some v | _ => None end | None => None end
                          end.
Proof.
  induction l as [|[k a] l IH]; intros m x I E; cbn [insert_all] in E.
  - inversion E; subst. split; [auto|]. split; [constructor|]. intro k. cbn. destruct (map_get k x); reflexivity.
  - destruct (convert a) as [v| |] eqn:C; cbn [bind] in E; try discriminate.
    apply IH in E; [|apply (insert_get k v m k I)]. destruct E as (I' & F & G). split; [exact I'|]. split; [constructor; eauto|].
    intro k'. rewrite G. cbn [first_with]. rewrite (proj2 (insert_get k v m k' I)). destruct (map_get k' m); [reflexivity|].
    destruct (bytes_eqb k' k); [rewrite C|]; reflexivity.
Qed.

Lemma insert_total : forall A (convert : A -> res value) l m, Forall (fun ka => exists v, convert (snd ka) = Ok v) l -> exists x, insert_all convert m l = Ok x.
Proof.
  induction l as [|[k a] l IH]; intros m F; cbn [insert_all]; [eauto|]. inversion F as [|? ? (v & E) F']; subst. cbn [snd] in E. rewrite E. cbn [bind]. auto.
Qed.

Lemma array_wf : forall ver l, small (zlen l) -> Forall (wf ver) l -> wf ver (VArray l).
Proof. intros ver l S F. cbn [wf]. split; [exact S|]. clear S. induction F; [exact I|]. split; assumption. Qed.

(** ** C78 *)
(** An array has the converted elements in their order; a conversion that throws for the first time at an element makes the exception. *)
Theorem C78_array : forall A (convert : A -> res value) l,
  (forall v, to_array convert l = Ok v <-> exists vs, Forall2 (fun a x => convert a = Ok x) l vs /\ v = VArray vs) /\
  (forall e, to_array convert l = Err e <-> exists l1 a l2, l = l1 ++ a :: l2 /\ Forall (fun a => exists v, convert a = Ok v) l1 /\ convert a = Err e).
Proof.
  intros A convert l. unfold to_array. split.
  - intro v. destruct (push_all convert [] l) as [x| |] eqn:E; cbn [bind].
    + pose proof (proj1 (push_spec A convert l [] x) E) as (vs & F & ->). cbn [app] in *. split.
      * intro X. inversion X; subst. eauto.
      * intros (vs' & F' & ->). assert (P : push_all convert [] l = Ok vs') by (apply push_spec; eauto). congruence.
    + split; [discriminate|]. intros (vs' & F' & ->). assert (P : push_all convert [] l = Ok vs') by (apply push_spec; eauto). congruence.
    + split; [discriminate|]. intros (vs' & F' & ->). assert (P : push_all convert [] l = Ok vs') by (apply push_spec; eauto). congruence.
  - intro e. rewrite <- (push_err A convert l []). destruct (push_all convert [] l); cbn [bind]; split; intro; try discriminate; congruence.
Qed.
Print Assumptions C78_array.

(** A struct has one member for each key, with the first value of this key. *)
Theorem C78_struct : forall A (convert : A -> res value) l,
  Forall (fun ka => exists v, convert (snd ka) = Ok v) l ->
  exists m, to_struct convert l = Ok (VStruct m) /\ increasing m /\ NoDup (map fst m) /\
  forall k, struct_get k m = match first_with k l with Some a => match convert a with Ok v => Some v | _ => None end | None => None end.
Proof.
  intros A convert l F. destruct (insert_total A convert l [] F) as (m & E). exists m. unfold to_struct. rewrite E. split; [reflexivity|].
  destruct (insert_spec A convert l [] m I E) as (I' & _ & G). split; [exact I'|]. split; [apply increasing_nodup; exact I'|]. exact G.
Qed.
Print Assumptions C78_struct.

(** So an array of arrays of 64-bit integers is read by the receiver as it is. *)
Theorem C78_sent : forall val req ver (l : list (list Z)),
  modern ver -> small (zlen l) -> Forall (fun x => small (zlen x) /\ Forall in_s64 x) l -> accepts req T_METHOD_RESPONSE ->
  exists v wire, to_array (array_cnvt int_cnvt) l = Ok v /\ sent ver (response_calls v) = Ok wire /\
  forall pieces, concat pieces = wire -> received_value val req pieces = Ok (VArray (map (fun x => VArray (map VInt x)) l)).
Proof.
  intros val req ver l HV S F HA. set (v := VArray (map (fun x => VArray (map VInt x)) l)).
  assert (IN : forall x, array_cnvt int_cnvt x = Ok (VArray (map VInt x))).
  { intro x. apply C78_array. exists (map VInt x). split; [|reflexivity]. induction x; cbn; constructor; auto. }
  assert (E : to_array (array_cnvt int_cnvt) l = Ok v).
  { apply C78_array. exists (map (fun x => VArray (map VInt x)) l). split; [|reflexivity]. clear - IN. induction l; cbn; constructor; auto. }
  assert (W : wf ver v).
  { apply array_wf; rewrite ?zlen_map; [exact S|]. apply Forall_map. eapply Forall_impl; [|exact F]. intros x (SX & FX).
    apply array_wf; rewrite ?zlen_map; [exact SX|]. apply Forall_map. exact FX. }
  assert (ND : plain (make_datetime val) v = v).
  { unfold v. cbn. f_equal. rewrite map_map. apply map_ext. intro x. cbn. f_equal. rewrite map_map. apply map_ext. reflexivity. }
  destruct (C01_response_round_trip val req ver v HV W HA) as (wire & EW & RV). exists v, wire. split; [exact E|]. split; [exact EW|].
  intros pieces EP. rewrite (RV pieces EP), ND. reflexivity.
Qed.
Print Assumptions C78_sent.

Example C78_sample : to_array (array_cnvt int_cnvt) [[1; -2]; []; [2 ^ 63 - 1]] = Ok (VArray [VArray [VInt 1; VInt (-2)]; VArray []; VArray [VInt (2 ^ 63 - 1)]])
  /\ to_struct string_cnvt [(str "b", str "1"); (str "a", str "2"); (str "b", str "3")] = Ok (VStruct [(str "a", VString (str "2")); (str "b", VString (str "1"))]).
Proof. split; reflexivity. Qed.

(** Names are not checked: a container with an empty or a long name makes a struct that cannot be sent. *)
Theorem C78_name_refuted : forall k a, blen k = 0 \/ 255 < blen k ->
  to_struct int_cnvt [(k, a)] = Ok (VStruct [(k, VInt a)]) /\ forall ver, exists e, sent ver (response_calls (VStruct [(k, VInt a)])) = Err e.
Proof.
  intros k a K. split; [reflexivity|]. intro ver. unfold sent, response_calls. cbn [feed bin_run bin_pack app].
  destruct (Z.ltb_spec 255 (blen k)); destruct (Z.eqb_spec (blen k) 0); cbn [orb]; try lia; eauto.
Qed.
Print Assumptions C78_name_refuted.

(** Wide strings: whatever the text, the value is the empty string, and a value converted to a wide string is empty. *)
Theorem C78_wide_refuted : forall us, us <> [] -> Forall uchar us ->
  wstring_cnvt us = Ok (VString []) /\ VString [] <> VString (flat_map utf8_char us) /\ wide_of_string (flat_map utf8_char us) = [] /\ us <> [].
Proof.
  intros us N F. split; [reflexivity|]. split; [|auto]. destruct us as [|u us]; [congruence|]. cbn [flat_map]. intro E. inversion E as [E1].
  symmetry in E1. apply app_eq_nil in E1. destruct E1 as [E1 _]. unfold utf8_char in E1.
  destruct (u <? 128); [discriminate|]. destruct (u <? 2048); [discriminate|]. destruct (u <? 65536); discriminate.
Qed.
Print Assumptions C78_wide_refuted.
