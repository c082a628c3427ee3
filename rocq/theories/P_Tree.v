(** Properties of the tree feeder and builder: C17, C18. *)
From Coq Require Import Lia.
From Verif Require Import Base Value M_Marshal M_BinUnmarshal M_TreeBuilder S_Events S_Value S_Wire
  L_Base L_RoundTrip L_TreeBuilder L_Message L_Wire L_Extra L_Dup.

(** ** C17 *)
Theorem C17_feed_build : forall val ver v, wf ver v ->
  exists t, replay (tb_step val) tb_init (events v) = (t, None) /\ tb_data t = Ok (plain (make_datetime val) v).
Proof.
  intros val ver v W. destruct (builds_root val ver v tb_init W eq_refl eq_refl eq_refl) as [m E]. eexists. split; [exact E|].
  reflexivity.
Qed.
Print Assumptions C17_feed_build.

Theorem C17_duplicates_keep_last : forall val ver n l,
  Forall (fun kv => name_ok (fst kv) /\ wf ver (snd kv)) l ->
  exists t m,
    replay (tb_step val) tb_init
      (EOpenStruct n :: flat_map (fun kv => EMember (fst kv) :: events (snd kv)) l ++ [ECloseStruct]) = (t, None)
    /\ tb_data t = Ok (VStruct m) /\ increasing m
    /\ forall k, map_get k m = last_value k (map (fun kv => (fst kv, plain (make_datetime val) (snd kv))) l).
Proof. exact dup_struct. Qed.
Print Assumptions C17_duplicates_keep_last.

Example C17_sample : last_value (str "a") [(str "a", VInt 1); (str "b", VInt 2); (str "a", VInt 3)] = Some (VInt 3)
  /\ received_value None TYPE_ANY
       [map z2b [202; 17; 2; 1; 112; 80; 3; 1; 97; 56; 1; 1; 98; 56; 2; 1; 97; 56; 3]]
     = Ok (VStruct [(str "a", VInt 3); (str "b", VInt 2)]).
Proof. split; vm_compute; reflexivity. Qed.

(** ** C18 *)
(** The calls that begin a value. *)
Definition begins_value (e : event) : Prop :=
  match e with
  | EInt _ | EBool _ | ENull | EDouble _ | EString _ | EBinary _ | EDateTime _ | EOpenStruct _ | EOpenArray _ => True
  | _ => False
  end.

Theorem C18_builder_refuses : forall val ver v t e, wf ver v ->
  replay (tb_step val) tb_init (events v) = (t, None) -> begins_value e ->
  tb_step val t e = (t, Some (Exn (StreamError "Unexpected value after end")))
  /\ tb_data t = Ok (plain (make_datetime val) v).
Proof.
  intros val ver v t e W H HE. destruct (builds_root val ver v tb_init W eq_refl eq_refl eq_refl) as [m E].
  rewrite E in H. inversion H; subst. split; [|reflexivity].
  assert (exists s, nest_step (NBody []) e = Some s) as [s N] by (destruct e; cbn in *; try contradiction; eauto).
  eapply (done_refuses val _ e s); [reflexivity|reflexivity|exact N].
Qed.
Print Assumptions C18_builder_refuses.

Theorem C18_extra_data_refused : forall val req ver v wire extra pieces,
  modern ver -> wf ver v -> accepts req T_METHOD_RESPONSE ->
  sent ver (response_calls v) = Ok wire -> extra <> [] -> concat pieces = wire ++ extra ->
  (exists m, received val req pieces = Err (StreamError m)) /\
  tb_data (snd (fst (unmarshall_all tb (tb_step val) req unm_init tb_init pieces)))
    = Ok (plain (make_datetime val) v).
Proof. intros val req ver v wire extra pieces HM. apply response_extra; auto. Qed.
Print Assumptions C18_extra_data_refused.

Example C18_sample :
  received None TYPE_ANY [map z2b [202; 17; 2; 1; 112; 56; 5]; map z2b [56; 6]]
  = Err (StreamError "Unexpected value after end").
Proof. vm_compute. reflexivity. Qed.
