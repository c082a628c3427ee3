(** Lemmas: the builder of the Python binding. *)
From Coq Require Import Lia Permutation.
From Verif Require Import Base Value Unicode M_Marshal M_BinUnmarshal S_Value S_Wire M_Python S_Python L_Base L_Bits L_BinUnmarshal L_RoundTrip L_PyText.
Ltac Zify.zify_post_hook ::= Z.div_mod_to_equations.

Section Build.
  Variable host : datetime -> datetime.
  Variable pass native : bool.
  Notation step := (pb_step host pass native).

  (** The object of a value, if there is one. *)
  Fixpoint py_of (v : value) : option py :=
    match v with
    | VInt z => Some (PyInt z)
    | VBool b => Some (if native then PyBool b else PyBoolean b)
    | VNull => Some PyNone
    | VDouble d => Some (PyFloat d)
    | VString s | VStringView s => option_map PyStr (py_decode pass s)
    | VBinary s => Some (PyBytes s)
    | VBinaryRef _ cs => Some (PyBytes (concat cs))
    | VDateTime d => Some (PyDate (new_date host d))
    | VStruct m =>
        option_map of_dict ((fix go (m : list (bytes * value)) (acc : list (pystr * py)) : option (list (pystr * py)) :=
          match m with
          | [] => Some acc
          | (k, x) :: r =>
              match key_of k with
              | None => None
              | Some k => match py_of x with Some p => go r (dict_set k p acc) | None => None end
              end
          end) m [])
    | VArray l =>
        option_map PyList ((fix go (l : list value) : option (list py) :=
          match l with
          | [] => Some []
          | x :: r => match py_of x with Some p => option_map (cons p) (go r) | None => None end
          end) l)
    | VSecret x => py_of x
    end.
  Fixpoint items_of (l : list value) : option (list py) :=
    match l with
    | [] => Some []
    | x :: r => match py_of x with Some p => option_map (cons p) (items_of r) | None => None end
    end.
  Fixpoint members_of (m : list (bytes * value)) (acc : list (pystr * py)) : option (list (pystr * py)) :=
    match m with
    | [] => Some acc
    | (k, x) :: r =>
        match key_of k with
        | None => None
        | Some k => match py_of x with Some p => members_of r (dict_set k p acc) | None => None end
        end
    end.
  Lemma py_of_array : forall l, py_of (VArray l) = option_map PyList (items_of l).
  Proof. intro l. cbn [py_of]. f_equal. Qed.
  Lemma py_of_struct : forall m, py_of (VStruct m) = option_map of_dict (members_of m []).
  Proof. intro m. cbn [py_of]. f_equal. Qed.

  Definition pb_set (m : bytes) (b : pb) : pb := mkPB (pb_stack b) (pb_root b) (pb_first b) (pb_error b) m (pb_method b).
  Definition pb_bad (b : pb) : Prop := pb_error b = true /\ pb_root b = P_null.

  (** After an error nothing changes. *)
  Definition ordinary (e : event) : Prop := match e with EMethodCall _ => False | _ => True end.
  Lemma bad_step : forall b e, pb_error b = true -> ordinary e -> step b e = (b, None).
  Proof.
    intros b e E O. destruct e; cbn [pb_step ordinary] in *; try contradiction; unfold pb_value, pb_open, pb_close; rewrite ?E; try reflexivity.
    destruct (py_decode pass s); reflexivity.
  Qed.
  Lemma bad_replay : forall es b, pb_error b = true -> Forall ordinary es -> replay step b es = (b, None).
  Proof. induction es as [|e es IH]; intros b E F; cbn [replay]; [reflexivity|]. inversion F; subst. rewrite bad_step; auto. Qed.
  Lemma events_ordinary : forall v, Forall ordinary (events v).
  Proof.
    induction v using value_nested_ind; cbn [events]; try (repeat constructor; fail); try assumption.
    - constructor; [exact I|]. apply Forall_app. split; [|repeat constructor]. induction m as [|[k x] m IM]; cbn [flat_map]; [constructor|].
      inversion H; subst. constructor; [exact I|]. apply Forall_app. auto.
    - constructor; [exact I|]. apply Forall_app. split; [|repeat constructor]. induction l as [|x l IL]; cbn [flat_map]; [constructor|].
      inversion H; subst. apply Forall_app. auto.
  Qed.
  Lemma items_ordinary : forall l, Forall ordinary (flat_map events l).
  Proof. induction l; cbn [flat_map]; [constructor|]. apply Forall_app. split; [apply events_ordinary|auto]. Qed.

  (** What the calls for a value do, when the new object is linked by [k]. *)
  Definition done_to (b : pb) (es : list event) (o : option pb) : Prop :=
    match o with
    | Some b' => exists m, replay step b es = (pb_set m b', None)
    | None => exists b', replay step b es = (b', None) /\ pb_bad b'
    end.
  Definition builds_py (v : value) : Prop :=
    forall b k, pb_error b = false -> link_of b = Some k -> done_to b (events v) (option_map (fun p => place k p b) (py_of v)).

  Lemma pb_set_id : forall b, pb_set (pb_member b) b = b.
  Proof. intro b. destruct b; reflexivity. Qed.
  Lemma pb_set_set : forall a c b, pb_set a (pb_set c b) = pb_set a b.
  Proof. reflexivity. Qed.

  Lemma one_event : forall b e p k, step b e = (pb_value p b, None) -> pb_error b = false -> link_of b = Some k ->
    done_to b [e] (Some (place k p b)).
  Proof.
    intros b e p k S E L. exists (pb_member (place k p b)). cbn [replay]. rewrite S. unfold pb_value. rewrite E, L, pb_set_id. reflexivity.
  Qed.

  Lemma builds_items : forall l, Forall builds_py l -> forall b q acc r, pb_error b = false -> pb_stack b = (q, PB_list acc) :: r ->
    done_to b (flat_map events l) (option_map (fun ps => pb_with ((q, PB_list (acc ++ ps)) :: r) b) (items_of l)).
  Proof.
    induction 1 as [|x l BX _ IH]; intros b q acc r E S; cbn [flat_map items_of option_map].
    - exists (pb_member b). cbn [replay]. rewrite app_nil_r. unfold pb_with, pb_set. cbn. rewrite <- S. destruct b; reflexivity.
    - assert (L : link_of b = Some L_item) by (unfold link_of; rewrite S; reflexivity).
      pose proof (BX b L_item E L) as D. destruct (py_of x) as [p|]; cbn [option_map] in D.
      + destruct D as [m D]. unfold place in D. rewrite S in D. cbn [add_item] in D.
        set (b1 := pb_set m (pb_with ((q, PB_list (acc ++ [p])) :: r) b)) in *.
        specialize (IH b1 q (acc ++ [p]) r E eq_refl). destruct (items_of l) as [ps|]; cbn [option_map done_to] in *.
        * destruct IH as [m' IH]. exists m'. rewrite replay_app, D, IH. rewrite <- app_assoc. reflexivity.
        * destruct IH as (b' & IH & B). exists b'. rewrite replay_app, D, IH. auto.
      + destruct D as (b' & D & B). exists b'. rewrite replay_app, D. rewrite bad_replay; auto; [apply B|apply items_ordinary].
  Qed.

  Lemma builds_members : forall m, Forall (fun kv => builds_py (snd kv)) m -> forall b q acc r, pb_error b = false -> pb_stack b = (q, PB_dict acc) :: r ->
    done_to b (flat_map (fun kv => EMember (fst kv) :: events (snd kv)) m) (option_map (fun ps => pb_with ((q, PB_dict ps) :: r) b) (members_of m acc)).
  Proof.
    induction 1 as [|[k x] m BX _ IH]; intros b q acc r E S; cbn [flat_map members_of option_map].
    - exists (pb_member b). cbn [replay]. unfold pb_with, pb_set. cbn. rewrite <- S. destruct b; reflexivity.
    - cbn [fst snd app] in *.
      set (b0 := mkPB (pb_stack b) (pb_root b) (pb_first b) false k (pb_method b)).
      assert (OM : Forall ordinary (flat_map (fun kv => EMember (fst kv) :: events (snd kv)) m)).
      { clear. induction m as [|[k x] m IM]; cbn [flat_map]; [constructor|]. constructor; [exact I|]. apply Forall_app. split; [apply events_ordinary|exact IM]. }
      assert (DT : forall o, done_to b0 (events x ++ flat_map (fun kv => EMember (fst kv) :: events (snd kv)) m) o ->
                   done_to b (EMember k :: events x ++ flat_map (fun kv => EMember (fst kv) :: events (snd kv)) m) o).
      { intros o D. unfold done_to in *. cbn [replay pb_step]. rewrite E. exact D. }
      apply DT. clear DT. destruct (key_of k) as [key|] eqn:K.
      + assert (L : link_of b0 = Some (L_member key)) by (unfold link_of; cbn [b0 pb_stack pb_member]; rewrite S, K; reflexivity).
        pose proof (BX b0 (L_member key) eq_refl L) as D. destruct (py_of x) as [p|]; cbn [option_map] in D.
        * destruct D as [m1 D]. unfold place in D. cbn [b0 pb_stack] in D. rewrite S in D. cbn [add_member] in D.
          set (b1 := pb_set m1 (pb_with ((q, PB_dict (dict_set key p acc)) :: r) b0)) in *.
          specialize (IH b1 q (dict_set key p acc) r eq_refl eq_refl). destruct (members_of m (dict_set key p acc)) as [ps|]; cbn [option_map done_to] in *.
          -- destruct IH as [m' IH]. exists m'. rewrite replay_app, D, IH. unfold b1, b0, pb_with, pb_set. cbn. rewrite E. reflexivity.
          -- destruct IH as (b' & IH & B). exists b'. rewrite replay_app, D, IH. auto.
        * destruct D as (b' & D & B). exists b'. rewrite replay_app, D. rewrite bad_replay; auto. apply B.
      + assert (L : link_of b0 = None) by (unfold link_of; cbn [b0 pb_stack pb_member]; rewrite S, K; reflexivity).
        cbn [option_map]. exists (pb_fail b0). split; [|split; reflexivity].
        assert (X : exists e es, events x = e :: es /\ step b0 e = (pb_fail b0, None) /\ Forall ordinary es).
        { clear - L. assert (HD : forall e es, events x = e :: es -> step b0 e = (pb_fail b0, None) -> exists e es, events x = e :: es /\ step b0 e = (pb_fail b0, None) /\ Forall ordinary es).
          { intros e es EQ ST. exists e, es. split; [exact EQ|]. split; [exact ST|]. pose proof (events_ordinary x) as O. rewrite EQ in O. inversion O; auto. }
          induction x using value_nested_ind; cbn [events] in *;
            try (eapply HD; [reflexivity|]; cbn [pb_step]; unfold pb_value, pb_open; rewrite L; cbn [b0 pb_error]; try reflexivity; destruct (py_decode pass s); reflexivity).
          apply IHx. exact HD. }
        destruct X as (e & es & -> & ST & O). cbn [app replay]. rewrite ST. apply bad_replay; [reflexivity|]. apply Forall_app. auto.
  Qed.

  Theorem builds_all : forall v, builds_py v.
  Proof.
    intro v. unfold builds_py. induction v using value_nested_ind; intros pb0 k E L; try (apply one_event; auto; fail); try (exact (IHv pb0 k E L)).
    - cbn [py_of events]. cbn [done_to]. destruct (py_decode pass s) as [u|] eqn:D.
      + apply one_event; auto. cbn [pb_step]. rewrite D. reflexivity.
      + exists (pb_fail pb0). cbn [replay pb_step]. rewrite D, E. repeat split.
    - cbn [py_of events]. cbn [done_to]. destruct (py_decode pass s) as [u|] eqn:D.
      + apply one_event; auto. cbn [pb_step]. rewrite D. reflexivity.
      + exists (pb_fail pb0). cbn [replay pb_step]. rewrite D, E. repeat split.
    - rewrite py_of_struct. cbn [events].
      set (es := flat_map _ m). set (b0 := mkPB ((k, PB_dict []) :: pb_stack pb0) (match k with L_root => P_open | _ => pb_root pb0 end)
                     (match k with L_root => false | _ => pb_first pb0 end) (pb_error pb0) (pb_member pb0) (pb_method pb0)).
      assert (OP : forall es, replay step pb0 (EOpenStruct (zlen m) :: es) = replay step b0 es) by (intro; cbn [replay pb_step]; unfold pb_open; rewrite E, L; unfold b0; rewrite E; reflexivity).
      pose proof (builds_members m H b0 k [] (pb_stack pb0) E eq_refl) as D. fold es in D.
      destruct (members_of m []) as [ps|]; cbn [option_map done_to] in *.
      + destruct D as [m1 D]. exists m1. rewrite OP, replay_app, D. cbn [replay pb_step]. unfold pb_close. cbn [pb_set pb_with pb_error pb_stack b0]. rewrite E.
        unfold pb_value_of. clear. unfold place, pb_set, pb_with, b0. destruct pb0 as [stk rt fi er me mt]. cbn. destruct k; destruct stk as [|[? ?] ?]; reflexivity.
      + destruct D as (b' & D & B). exists b'. rewrite OP, replay_app, D. cbn [replay]. rewrite bad_step; [auto|apply B|exact I].
    - rewrite py_of_array. cbn [events].
      set (es := flat_map _ l). set (b0 := mkPB ((k, PB_list []) :: pb_stack pb0) (match k with L_root => P_open | _ => pb_root pb0 end)
                     (match k with L_root => false | _ => pb_first pb0 end) (pb_error pb0) (pb_member pb0) (pb_method pb0)).
      assert (OP : forall es, replay step pb0 (EOpenArray (zlen l) :: es) = replay step b0 es) by (intro; cbn [replay pb_step]; unfold pb_open; rewrite E, L; unfold b0; rewrite E; reflexivity).
      pose proof (builds_items l H b0 k [] (pb_stack pb0) E eq_refl) as D. fold es in D.
      destruct (items_of l) as [ps|]; cbn [option_map done_to] in *.
      + destruct D as [m1 D]. exists m1. rewrite OP, replay_app, D. cbn [replay pb_step]. unfold pb_close. cbn [pb_set pb_with pb_error pb_stack b0]. rewrite E.
        unfold pb_value_of. clear. unfold place, pb_set, pb_with, b0. destruct pb0 as [stk rt fi er me mt]. cbn. destruct k; destruct stk as [|[? ?] ?]; reflexivity.
      + destruct D as (b' & D & B). exists b'. rewrite OP, replay_app, D. cbn [replay]. rewrite bad_step; [auto|apply B|exact I].
  Qed.
End Build.
