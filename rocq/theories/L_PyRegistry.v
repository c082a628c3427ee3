(** Dispatching in the Python binding: the fuel, the specification of a call. *)
From Coq Require Import Lia.
From Verif Require Import Base Value Unicode M_Marshal M_Registry M_Python M_PyRegistry S_Value S_Python S_Registry S_PyRegistry L_Base L_PyText L_PyRead L_Python.

Lemma c_string_idem : forall s, c_string (c_string s) = c_string s.
Proof. induction s as [|a s IH]; [reflexivity|]. cbn [c_string]. destruct (b2z a =? 0) eqn:E; [reflexivity|]. cbn [c_string]. rewrite E, IH. reflexivity. Qed.

Section Fuel.
  Context {W : Type}.
  Variable own : pyexn -> pystr.
  Notation pregistry := (pregistry (W:=W)).
  Implicit Types (g : pregistry) (w : W).

  Lemma dict_get_nesting : forall k m v, dict_get k m = Some v -> (py_nesting v < py_nesting (PyDict m))%nat.
  Proof.
    intros k m v. cbn [py_nesting]. induction m as [|[q x] m IH]; intro H; [discriminate|]. cbn [dict_get fold_right snd] in *.
    assert (G : dict_get k m = Some v -> (py_nesting v < S (Nat.max (py_nesting x) (fold_right (fun kv n => Nat.max (py_nesting (snd kv)) n) O m)))%nat) by (intro X; specialize (IH X); lia).
    destruct q; auto. destruct (pystr_eqb k s); [|auto]. inversion H; subst. lia.
  Qed.

  Section Ext.
    Variables (a1 a2 : W -> bytes -> list py -> W * dispatched).
    Lemma multi_one_ext : forall w e, (forall w n ps, (py_nesting (PyTuple ps) < py_nesting e)%nat -> a1 w n ps = a2 w n ps) -> multi_one own a1 w e = multi_one own a2 w e.
    Proof.
      intros w e H. destruct e; try reflexivity. cbn [multi_one]. destruct (dict_get (ustr "params") m) as [p|] eqn:EP; [|reflexivity]. apply dict_get_nesting in EP.
      destruct p; try reflexivity; (destruct (dict_get (ustr "methodName") m) as [n|]; [|reflexivity]; destruct n; try reflexivity; destruct (py_encode s); [|reflexivity]; rewrite H; [reflexivity|exact EP]).
    Qed.
    Lemma multi_all_ext : forall l w acc, (forall e w n ps, In e l -> (py_nesting (PyTuple ps) < py_nesting e)%nat -> a1 w n ps = a2 w n ps) ->
      multi_all own a1 w acc l = multi_all own a2 w acc l.
    Proof.
      induction l as [|e l IH]; intros w acc H; [reflexivity|]. cbn [multi_all]. rewrite (multi_one_ext w e) by (intros; eapply H; [left; reflexivity|assumption]).
      destruct (multi_one own a2 w e) as [w1 [v|t|]]; try reflexivity. apply IH. intros; eapply H; [right; eassumption|assumption].
    Qed.
    Lemma in_nesting : forall (l : list py) e, In e l -> (py_nesting e < py_nesting (PyTuple l))%nat.
    Proof.
      intros l e. cbn [py_nesting]. induction l as [|x l IH]; intros []; cbn [fold_right]; [subst; lia|]. specialize (IH H). lia.
    Qed.
    Lemma call_kind_ext : forall g w k params, (forall w n ps l, params = Params l -> (py_nesting (PyTuple ps) < py_nesting (PyTuple l))%nat -> a1 w n ps = a2 w n ps) ->
      call_kind own a1 g w k params = call_kind own a2 g w k params.
    Proof.
      intros g w k params H. destruct k; try reflexivity. cbn [call_kind]. destruct params as [l|]; [|reflexivity]. unfold multicall_of.
      destruct l as [|[| | | | | | | | |es| | | |] [|? ?]]; try reflexivity. apply multi_all_ext. intros e w0 n ps HI L. apply (H w0 n ps _ eq_refl).
      pose proof (in_nesting es e HI) as L1. cbn [py_nesting fold_right] in *. lia.
    Qed.
    Lemma dispatch_body_ext : forall g w name client params, (forall w n ps l, params = Params l -> (py_nesting (PyTuple ps) < py_nesting (PyTuple l))%nat -> a1 w n ps = a2 w n ps) ->
      dispatch_body own a1 g w name client params = dispatch_body own a2 g w name client params.
    Proof.
      intros g w name client params H. unfold dispatch_body. destruct (pre_stage own g w name client params) as [[w1 [x|]] pending]; [reflexivity|].
      unfold call_stage. destruct (map_get name (r_methods g)); [|reflexivity]. rewrite (call_kind_ext g w1 (m_kind p) params H). reflexivity.
    Qed.
  End Ext.

  (** The fuel does not matter above the nesting. *)
  Lemma dispatch_fuel_enough : forall k1 k2 g client w name l, (py_nesting (PyTuple l) <= k1)%nat -> (py_nesting (PyTuple l) <= k2)%nat ->
    dispatch_fuel own k1 g client w name (Params l) = dispatch_fuel own k2 g client w name (Params l).
  Proof.
    induction k1 as [|k1 IH]; intros k2 g client w name l L1 L2; [cbn [py_nesting] in L1; lia|]. destruct k2 as [|k2]; [cbn [py_nesting] in L2; lia|]. cbn [dispatch_fuel].
    apply dispatch_body_ext. intros w0 n ps l' E L. inversion E; subst l'. apply IH; lia.
  Qed.
  Lemma dispatch_unfold : forall g client w name params, dispatch_call own g client w name params =
    dispatch_body own (fun w n ps => dispatch_call own g client w n (Params ps)) g w name client params.
  Proof.
    intros g client w name params. unfold dispatch_call at 1. destruct params as [l|t].
    - cbn [dispatch_fuel]. apply dispatch_body_ext. intros w0 n ps l' E L. inversion E; subst l'. unfold dispatch_call. apply dispatch_fuel_enough; lia.
    - cbn [dispatch_fuel]. apply dispatch_body_ext. intros w0 n ps l' E L. discriminate E.
  Qed.
End Fuel.

Lemma char_c_string : forall c r, uchar c -> c <> 0 -> c_string (utf8_char c ++ r) = utf8_char c ++ c_string r.
Proof.
  intros c r UC C. assert (B : forall x, In x (utf8_char c) -> b2z x <> 0).
  { clear r. unfold uchar in UC. unfold utf8_char. intros x HI.
    repeat match type of HI with context [if ?b then _ else _] => destruct b eqn:? end; cbn [In] in HI; intuition subst; rewrite b2z_z2b in *; unfold u8 in *;
      repeat match goal with H : (_ <? _) = true |- _ => apply Z.ltb_lt in H | H : (_ <? _) = false |- _ => apply Z.ltb_ge in H end;
      match goal with H : ?e mod 256 = 0 |- _ => pose proof (Z.mod_small e 256) end; Z.div_mod_to_equations; lia. }
  revert B. generalize (utf8_char c). intros a B. induction a as [|x a IA]; [reflexivity|]. cbn [app c_string].
  destruct (b2z x =? 0) eqn:E; [exfalso; apply (B x); [left; reflexivity|apply Z.eqb_eq; exact E]|]. f_equal. apply IA. intros; apply B; right; assumption.
Qed.
Lemma same_no_nul : forall s u, same_str s u -> ~ In 0 u -> c_string s = s.
Proof.
  intros s u [U ->] N. induction u as [|c u IH]; [reflexivity|]. inversion U as [|? ? UC UU]; subst. cbn [flat_map].
  rewrite char_c_string; [|exact UC|intro X; apply N; left; exact X]. f_equal. apply IH; [exact UU|]. intro X; apply N; right; exact X.
Qed.
Lemma c_string_text : forall s, is_text s -> is_text (c_string s).
Proof.
  intros s [u [U ->]]. induction u as [|c u IH]; [exists []; split; [constructor|reflexivity]|]. inversion U as [|? ? UC UU]; subst. cbn [flat_map].
  destruct (Z.eq_dec c 0) as [->|C]; [exists []; split; [constructor|reflexivity]|]. rewrite char_c_string by assumption. destruct (IH UU) as [v [V E]]. exists (c :: v). split; [constructor; assumption|]. cbn [flat_map]. rewrite E. reflexivity.
Qed.

Lemma same_app : forall s t u v, same_str s u -> same_str t v -> same_str (s ++ t) (u ++ v).
Proof. intros s t u v [U1 ->] [U2 ->]. split; [apply Forall_app; split; assumption|]. rewrite flat_map_app. reflexivity. Qed.
Lemma same_ustr : forall s, existsb (fun c => 128 <=? b2z c) (str s) = false -> same_str (str s) (ustr s).
Proof. intros. apply ascii_text. assumption. Qed.
Lemma not_found_text : forall code name u, same_str name u -> ~ In 0 u -> blen name <= 491 ->
  fault_not_found code name = Some (PyFault (PyInt code) (PyStr (ustr "Method '" ++ u ++ ustr "' not found."))).
Proof.
  intros code name u S N L. unfold fault_not_found. rewrite (same_no_nul _ _ S N).
  rewrite ztake_all; [|rewrite !zlen_app; unfold blen in L; change (zlen (str "Method '")) with 8; change (zlen (str "' not found.")) with 12; unfold zlen; lia].
  rewrite (decode_same false _ (ustr "Method '" ++ u ++ ustr "' not found.")); [reflexivity|].
  repeat apply same_app; [apply same_ustr; reflexivity|exact S|apply same_ustr; reflexivity].
Qed.

Section Handled.
  Context {W : Type}.
  Variable own : pyexn -> pystr.
  Variable g : pregistry (W:=W).
  Variable client : py.
  Notation sys := (system own g client).

  Lemma stands_fault_of : forall p t v, stands_for p t v -> fault_of p t = Some v.
  Proof. intros p t v H. unfold fault_of. inversion H as [F|x F X]; subst; rewrite F; [reflexivity|]. rewrite X. reflexivity. Qed.
  Lemma pre_stage_spec : forall w name u l w1 t, same_str name u -> preprocessed g client w name u l w1 t -> forall r, match t with None => r = None | Some t => exists v, stands_for "Unhandled exception in preprocessor " t v /\ r = Some (Returned v) end ->
    pre_stage own g w name client (Params l) = (w1, r, None).
  Proof.
    intros w name u l w1 t S H. unfold pre_stage. rewrite (decode_same false _ _ S).
    assert (NM : forall names, (forall m, known g name m -> names = m_names m) -> (unknown g name -> names = None) -> match map_get name (r_methods g) with Some m => m_names m | None => None end = names).
    { intros names K U. destruct (map_get name (r_methods g)) eqn:E; [symmetry; apply K; exact E|symmetry; apply U; exact E]. }
    inversion H as [P|f names w1' v P K U E|f names w1' t' P K U E]; subst; intros r HR.
    - rewrite P. subst. reflexivity.
    - rewrite P, (NM _ K U), E. subst. reflexivity.
    - destruct HR as (v & SV & ->). rewrite P, (NM _ K U), E, (stands_fault_of _ _ _ SV). reflexivity.
  Qed.
  Lemma call_stage_spec : forall w name u l w2 x, same_str name u -> ~ In 0 u -> method_ran g sys w name u l w2 x ->
    call_stage own (fun w n ps => dispatch_call own g client w n (Params ps)) g w name (Params l) None = (w2, x).
  Proof.
    intros w name u l w2 x S N H. unfold call_stage.
    inversion H as [f m w2' x' K M E|f m w2' x' K M E|d w2' x' U D E|U D L|m w2' x' K M1 M2 E]; subst.
    - rewrite K. cbn [call_kind]. rewrite M. cbn [call_kind]. rewrite E. reflexivity.
    - rewrite K. rewrite M. cbn [call_kind]. rewrite E. reflexivity.
    - rewrite U, D, (decode_same false _ _ S), E. reflexivity.
    - rewrite U, D. rewrite (not_found_text _ _ _ S N L). reflexivity.
    - rewrite K. unfold system in E. rewrite E. reflexivity.
  Qed.
  Lemma post_stage_spec : forall w name u l x w2 v, same_str name u -> postprocessed g client w u l x w2 v ->
    post_stage g w name client (Params l) x = (w2, D_value v).
  Proof.
    intros w name u l x w2 v S H. unfold post_stage. rewrite (decode_same false _ _ S).
    assert (SH : forall v, shows x v -> match x with Threw t => of_option (fault_of "Unhandled exception " t) | Returned v => D_value v | Crashed => D_crash end = D_value v).
    { intros y Y. inversion Y as [|t z Z]; subst; [reflexivity|]. rewrite (stands_fault_of _ _ _ Z). reflexivity. }
    assert (NF : forall (v : py) A (a : py -> py -> A) (b : A), (forall c m, v <> PyFault c m) -> match v with PyFault c m => a c m | _ => b end = b).
    { intros y A a b Y. destruct y; try reflexivity. exfalso; eapply Y; reflexivity. }
    assert (TL : forall r p e, told x r p e -> x <> Crashed /\ (forall A (k : option py -> option py -> option thrown -> A),
      (let fault := match x with Returned (PyFault c m) => Some (PyFault c m) | Threw t => if t_fault t then Some (t_value t) else None | _ => None end in
       k (match fault, x with None, Returned v => Some v | _, _ => None end) fault (match fault, x with None, Threw t => Some t | _, _ => None end)) = k r p e)).
    { intros r p e T. inversion T as [y Y|c m|t F|t F]; subst; split; try discriminate; intros A k; cbv zeta; try reflexivity; try (rewrite F; reflexivity).
      rewrite (NF y _ (fun c m => Some (PyFault c m)) None Y). reflexivity. }
    inversion H as [v' P SV|f w1 v' r p e P T E SV|f w1 v' r p e P T E NV|f w1 t v' r p e P T E SV]; subst.
    - rewrite P. rewrite (SH _ SV). destruct x; reflexivity.
    - destruct (TL _ _ _ T) as [NC K]. rewrite P. rewrite (SH _ SV). destruct x; try congruence;
      (pose proof (K _ (fun a b c => f w u client l a b c)) as K'; cbv beta zeta in K' |- *; rewrite K', E; reflexivity).
    - destruct (TL _ _ _ T) as [NC K]. rewrite P. destruct x; try congruence;
      (pose proof (K _ (fun a b c => f w u client l a b c)) as K'; cbv beta zeta in K' |- *; rewrite K', E; destruct v; try reflexivity; congruence).
    - destruct (TL _ _ _ T) as [NC K]. rewrite P. destruct x; try congruence;
      (pose proof (K _ (fun a b c => f w u client l a b c)) as K'; cbv beta zeta in K' |- *; rewrite K', E, (stands_fault_of _ _ _ SV); reflexivity).
  Qed.

  Theorem dispatch_handled : forall w name u l w' v, same_str name u -> ~ In 0 u -> handled g client sys w name u l w' v ->
    dispatch_call own g client w name (Params l) = (w', D_value v).
  Proof.
    intros w name u l w' v S N H. rewrite dispatch_unfold. unfold dispatch_body.
    inversion H as [w1 w2 x w3 v' P R Q|w1 t r w3 v' P F Q]; subst.
    - rewrite (pre_stage_spec _ _ _ _ _ _ S P None eq_refl). rewrite (call_stage_spec _ _ _ _ _ _ S N R). apply (post_stage_spec _ _ _ _ _ _ _ S Q).
    - rewrite (pre_stage_spec _ _ _ _ _ _ S P (Some (Returned r))) by (exists r; auto). apply (post_stage_spec _ _ _ _ _ _ _ S Q).
  Qed.
End Handled.

(** The strings within an object are strings of Python. *)
Fixpoint strs (p : py) : Prop :=
  match p with
  | PyStr s => is_str s
  | PyList l | PyTuple l => (fix all (l : list py) : Prop := match l with [] => True | x :: r => strs x /\ all r end) l
  | PyDict m => (fix all (l : list (py * py)) : Prop := match l with [] => True | (k, x) :: r => strs k /\ strs x /\ all r end) m
  | _ => True
  end.
Lemma object_strs : forall p, is_object p -> strs p.
Proof.
  fix F 1. intro p. destruct p as [|b|b|z|d|s|s|d|d|l|l|m|c m|]; cbn [is_object strs]; try exact (fun _ => I); try exact (fun x => x).
  - induction l as [|x l IL]; [exact (fun _ => I)|]. intros [O1 O2]. split; [exact (F x O1)|exact (IL O2)].
  - induction l as [|x l IL]; [exact (fun _ => I)|]. intros [O1 O2]. split; [exact (F x O1)|exact (IL O2)].
  - intros [_ O]. induction m as [|[k x] m IM]; [exact I|]. destruct O as (O1 & O2 & O3). split; [exact (F k O1)|]. split; [exact (F x O2)|exact (IM O3)].
Qed.

Section Safe.
  Context {W : Type}.
  Variable own : pyexn -> pystr.
  Variable g : pregistry (W:=W).
  Variable client : py.
  Hypothesis well : well_behaved g.

  Lemma fine_fault : forall p t, fine (Threw t) -> exists v, fault_of p t = Some v.
  Proof. intros p t H. unfold fault_of. destruct (t_fault t) eqn:F; [eauto|]. destruct H as [H|H]; [congruence|]. destruct (t_text t); [cbn; eauto|congruence]. Qed.
  Lemma fine_threw : forall e, fine (Threw (threw own e)).
  Proof. intros []; cbn; right; discriminate. Qed.
  Lemma fine_run : forall pend x, fine x -> fine (run_with own pend x).
  Proof. intros [t|] [v|t'|] F; try exact F. exact (fine_threw PE_System). Qed.
  Definition given_ok (params : given) : Prop := match params with Params _ => True | No_params t => r_post g = None /\ fine (Threw t) end.
  Definition name_ok (name : bytes) : Prop := is_text name \/ r_post g = None.

  Lemma fine_refused : forall name params, given_ok params -> fine (Threw (refused own name params)).
  Proof. intros name params G. unfold refused. destruct (py_decode false name); [|exact (fine_threw _)]. destruct params; [exact (fine_threw _)|exact (proj2 G)]. Qed.
  Lemma fine_list : forall w, fine (snd (list_of own g w)).
  Proof.
    intro w. unfold list_of. destruct (negb (r_introspection g)); [exact I|].
    assert (F : fine (snd match r_list g with None => (w, Returned (PyList [])) | Some f => f w end)) by (destruct (r_list g) eqn:E; [apply (well_list _ well _ _ E)|exact I]).
    destruct (match r_list g with None => _ | Some _ => _ end) as [w1 [v|t|]]; cbn [snd] in F; [|exact F|exact F].
    destruct v as [| | | | | | | | |l| | | |]; try exact (fine_threw PE_System). destruct (decoded_names _); [|exact (fine_threw PE_Decode)]. destruct l; [exact I|]. destruct (all_strs _); [exact I|exact (fine_threw PE_Type)].
  Qed.
  Lemma fine_about : forall fb conv field w ps, (forall f w u, fb = Some f -> fine (snd (f w u))) -> (forall v, fine (conv v)) -> fine (snd (about own fb conv field g w ps)).
  Proof.
    intros fb conv field w ps F1 F2. unfold about. destruct (one_string ps) as [[s name]|]; [|exact I]. destruct (negb (r_introspection g)); [exact I|]. destruct (map_get name (r_methods g)); [exact I|].
    destruct fb as [f|]; [|destruct (fault_not_found _ _); [exact I|exact (fine_threw PE_Decode)]]. specialize (F1 f w s eq_refl). destruct (f w s) as [w1 [v|t|]]; cbn [snd] in *; [apply F2|exact F1|exact F1].
  Qed.
  Lemma fine_signature : forall w ps, fine (snd (signature_of own g w ps)).
  Proof.
    intros w ps. apply fine_about; [intros f w0 u E; apply (well_signature _ well _ _ _ E)|]. intro v. unfold signature_arg. destruct v; try exact I. destruct (py_encode s); [|exact (fine_threw PE_Encode)]. destruct (to_signature b); [exact I|exact (fine_threw PE_Value)].
  Qed.
  Lemma fine_help : forall w ps, fine (snd (help_of own g w ps)).
  Proof. intros w ps. apply fine_about; [intros f w0 u E; apply (well_help _ well _ _ _ E)|intro; exact I]. Qed.

  (** Strings of Python within an object. *)
  Lemma strs_in : forall l e, strs (PyTuple l) -> In e l -> strs e.
  Proof. induction l as [|x l IH]; intros e O []; cbn [strs] in O; destruct O as [O1 O2]; [subst; exact O1|apply IH; assumption]. Qed.
  Lemma strs_get : forall k m v, strs (PyDict m) -> dict_get k m = Some v -> strs v.
  Proof.
    intros k m v O. cbn [strs] in O. induction m as [|[q x] m IH]; intro H; [discriminate|]. cbn [dict_get] in H. destruct O as (Ok & Ox & O).
    destruct q; auto. destruct (pystr_eqb k s); [inversion H; subst; exact Ox|auto].
  Qed.
  Lemma object_get : forall k m v, is_object (PyDict m) -> dict_get k m = Some v -> is_object v.
  Proof.
    intros k m v [_ O]. induction m as [|[q x] m IH]; intro H; [discriminate|]. cbn [dict_get] in H. destruct O as (Ok & Ox & O).
    destruct q; auto. destruct (pystr_eqb k s); [inversion H; subst; exact Ox|auto].
  Qed.
  Lemma encode_text : forall s b, is_str s -> py_encode s = Some b -> is_text b.
  Proof. intros s b S E. destruct (encode_str s S) as [[U X]|[_ X]]; [|congruence]. exists s. split; [exact U|congruence]. Qed.

  Definition obj (p : py) : Prop := strs p \/ r_post g = None.
  Lemma obj_in : forall l e, obj (PyTuple l) -> In e l -> obj e.
  Proof. intros l e [O|O] H; [left; eapply strs_in; eassumption|right; exact O]. Qed.
  Lemma obj_get : forall k m v, obj (PyDict m) -> dict_get k m = Some v -> obj v.
  Proof. intros k m v [O|O] H; [left; eapply strs_get; eassumption|right; exact O]. Qed.
  Lemma obj_head : forall es r, obj (PyTuple (PyList es :: r)) -> obj (PyTuple es).
  Proof. intros es r [[O _]|O]; [left; exact O|right; exact O]. Qed.

  Section Again.
    Variable again : W -> bytes -> list py -> W * dispatched.
    Variable n : nat.
    Hypothesis again_ok : forall w name l, (py_nesting (PyTuple l) < n)%nat -> obj (PyTuple l) -> name_ok name -> exists v, snd (again w name l) = D_value v.

    Lemma safe_one : forall w e, obj e -> (py_nesting e <= n)%nat -> exists v, snd (multi_one own again w e) = Returned v.
    Proof.
      intros w e O L. destruct e; try (eexists; reflexivity). cbn [multi_one]. destruct (dict_get (ustr "params") m) as [p|] eqn:EP; [|eexists; reflexivity].
      pose proof (dict_get_nesting _ _ _ EP) as LP. pose proof (obj_get _ _ _ O EP) as OP.
      assert (G : forall l, (py_nesting (PyTuple l) < n)%nat -> obj (PyTuple l) -> forall s b, dict_get (ustr "methodName") m = Some (PyStr s) -> py_encode s = Some b ->
        exists v, snd match again w (c_string b) l with (w1, D_value (PyFault c m)) => (w1, Returned (fault_dict c m)) | (w1, D_value v) => (w1, Returned v) | (w1, _) => (w1, Crashed) end = Returned v).
      { intros l LL OL s b ES EB. assert (NB : name_ok (c_string b)) by (destruct (obj_get _ _ _ O ES) as [OS|OS]; [left; exact (c_string_text _ (encode_text _ _ OS EB))|right; exact OS]).
        destruct (again_ok w (c_string b) l LL OL NB) as [v V].
        destruct (again w (c_string b) l) as [w1 d]; cbn [snd] in V; subst d. destruct v; eexists; reflexivity. }
      destruct p as [| | | | | | | | |l|l| | |]; try (eexists; reflexivity); (destruct (dict_get (ustr "methodName") m) as [q|] eqn:EN; [|eexists; reflexivity]; destruct q; try (eexists; reflexivity);
        destruct (py_encode s) eqn:EB; [|eexists; reflexivity]; apply (G l) with (s := s); [cbn [py_nesting] in *; lia|exact OP|reflexivity|exact EB]).
    Qed.
    Lemma safe_multi : forall l w acc, (forall e, In e l -> obj e /\ (py_nesting e <= n)%nat) -> exists v, snd (multi_all own again w acc l) = Returned v.
    Proof.
      induction l as [|e l IH]; intros w acc H; [eexists; reflexivity|]. cbn [multi_all]. destruct (H e (or_introl eq_refl)) as [O L]. destruct (safe_one w e O L) as [v V].
      destruct (multi_one own again w e) as [w1 x]; cbn [snd] in V; subst x. apply IH. intros; apply H; right; assumption.
    Qed.
    Lemma safe_kind : forall name m w params, map_get name (r_methods g) = Some m -> given_ok params ->
      (forall l, params = Params l -> obj (PyTuple l) /\ (py_nesting (PyTuple l) <= S n)%nat) -> fine (snd (call_kind own again g w (m_kind m) params)).
    Proof.
      intros name m w params K GO B. destruct (m_kind m) eqn:MK; cbn [call_kind].
      - apply (well_plain _ well _ _ _ _ _ K MK).
      - apply (well_context _ well _ _ _ _ _ K MK).
      - destruct params; [apply fine_list|exact (proj2 GO)].
      - destruct params; [apply fine_signature|exact (proj2 GO)].
      - destruct params; [apply fine_help|exact (proj2 GO)].
      - destruct params as [l|]; [|exact (proj2 GO)]. destruct (B l eq_refl) as [O L]. unfold multicall_of.
        destruct l as [|[| | | | | | | | |es| | | |] [|? ?]]; try exact (fine_threw PE_Type).
        destruct (safe_multi es w []) as [v ->]; [|exact I]. intros e HI. split; [apply (obj_in es); [exact (obj_head _ _ O)|exact HI]|].
        pose proof (in_nesting es e HI). cbn [py_nesting fold_right] in *. lia.
    Qed.
    Lemma safe_body : forall w name params, name_ok name -> given_ok params -> (forall l, params = Params l -> obj (PyTuple l) /\ (py_nesting (PyTuple l) <= S n)%nat) ->
      exists v, snd (dispatch_body own again g w name client params) = D_value v.
    Proof.
      intros w name params NO GO B. unfold dispatch_body.
      assert (P : exists w1 r p, pre_stage own g w name client params = (w1, r, p) /\ match r with None => True | Some x => fine x end).
      { unfold pre_stage. destruct (r_pre g) as [f|] eqn:EP; [|do 3 eexists; split; [reflexivity|exact I]].
        assert (F : fine (snd match py_decode false name, params with Some u, Params l => f w u client l (match map_get name (r_methods g) with Some m => m_names m | None => None end) | _, _ => (w, Threw (refused own name params)) end)).
        { destruct (py_decode false name); [|apply fine_refused; exact GO]. destruct params; [apply (well_pre _ well _ _ _ _ _ _ EP)|apply fine_refused; exact GO]. }
        destruct (match py_decode false name with Some _ => _ | None => _ end) as [w1 [v|t|]]; cbn [snd] in F; [do 3 eexists; split; [reflexivity|exact I]| |contradiction].
        destruct (fine_fault "Unhandled exception in preprocessor " t F) as [v ->]. do 3 eexists; split; [reflexivity|exact I]. }
      destruct P as (w1 & r & pend & -> & FR).
      assert (C : fine (snd match r with Some x => (w1, x) | None => call_stage own again g w1 name params pend end)).
      { destruct r as [x|]; [exact FR|]. unfold call_stage. destruct (map_get name (r_methods g)) as [m|] eqn:K.
        - pose proof (safe_kind name m w1 params K GO B) as F. destruct (call_kind own again g w1 (m_kind m) params) as [w2 x]. apply fine_run, F.
        - destruct (r_default g) as [d|] eqn:D.
          + destruct (py_decode false name); [|apply fine_refused; exact GO]. destruct params as [l|]; [|apply fine_refused; exact GO].
            pose proof (well_default _ well _ w1 p l D) as F. destruct (d w1 p l) as [w2 x]. apply fine_run, F.
          + cbn [snd]. destruct pend; [exact (fine_threw _)|]. destruct (fault_not_found _ _); [exact I|exact (fine_threw _)]. }
      destruct (match r with Some _ => _ | None => _ end) as [w2 x]; cbn [snd] in C. unfold post_stage.
      assert (F : exists v, match x with Threw t => of_option (fault_of "Unhandled exception " t) | Returned v => D_value v | Crashed => D_crash end = D_value v).
      { destruct x as [v|t|]; [eexists; reflexivity| |contradiction]. destruct (fine_fault "Unhandled exception " t C) as [v ->]. eexists; reflexivity. }
      destruct F as [vf F]. cbv zeta. rewrite F. destruct (r_post g) as [f|] eqn:EP; [|destruct x; [eexists; reflexivity|eexists; reflexivity|contradiction]].
      destruct NO as [[u U]|NO]; [|congruence]. rewrite (decode_same false _ _ U). destruct params as [l|t]; [|destruct GO; congruence].
      destruct x as [v|t|]; [| |contradiction];
      (match goal with |- context [f w2 u client l ?a ?b ?c] => pose proof (well_post _ well _ w2 u client l a b c EP) as FP; destruct (f w2 u client l a b c) as [w3 q] end;
       cbn [snd] in FP; destruct q as [y|t'|]; [destruct y; eexists; reflexivity|destruct (fine_fault "Unhandled exception in postprocessor " t' FP) as [z ->]; eexists; reflexivity|contradiction]).
    Qed.
  End Again.

  Lemma safe_fuel : forall n w name l, (py_nesting (PyTuple l) <= S n)%nat -> name_ok name -> obj (PyTuple l) -> exists v, snd (dispatch_fuel own (S n) g client w name (Params l)) = D_value v.
  Proof.
    induction n as [|n IH]; intros w name l L NO OB; cbn [dispatch_fuel].
    - apply (safe_body _ O); [|exact NO|exact I|intros l' E; inversion E; subst; split; [exact OB|lia]]. intros w0 n0 l0 L0. cbn [py_nesting] in L0. lia.
    - apply (safe_body _ (S n)); [|exact NO|exact I|intros l' E; inversion E; subst; split; [exact OB|lia]]. intros w0 n0 l0 L0 O0 T0. apply IH; [lia|exact T0|exact O0].
  Qed.
  Theorem dispatch_strs : forall w name l, name_ok name -> strs (PyTuple l) -> exists v, snd (dispatch_call own g client w name (Params l)) = D_value v.
  Proof. intros w name l NO O. apply safe_fuel; [lia|exact NO|left; exact O]. Qed.
  Theorem dispatch_safe : forall w name l, name_ok name -> is_object (PyTuple l) -> exists v, snd (dispatch_call own g client w name (Params l)) = D_value v.
  Proof. intros w name l NO O. apply dispatch_strs; [exact NO|exact (object_strs (PyTuple l) O)]. Qed.
  Theorem dispatch_safe_post : forall w name l, r_post g = None -> exists v, snd (dispatch_call own g client w name (Params l)) = D_value v.
  Proof. intros w name l NO. apply safe_fuel; [lia|right; exact NO|right; exact NO]. Qed.
  Theorem dispatch_safe_none : forall w name t, given_ok (No_params t) -> exists v, snd (dispatch_call own g client w name (No_params t)) = D_value v.
  Proof. intros w name t GO. unfold dispatch_call. cbn [dispatch_fuel]. apply (safe_body _ O); [|right; exact (proj1 GO)|exact GO|intros l E; discriminate]. intros w0 n0 l0 L0. lia. Qed.
End Safe.

Section Exists.
  Context {W : Type}.
  Variable own : pyexn -> pystr.
  Variable g : pregistry (W:=W).
  Variable client : py.
  Hypothesis well : well_behaved g.
  Notation sys := (system own g client).

  Lemma stands_exists : forall p t, fine (Threw t) -> exists v, stands_for p t v.
  Proof.
    intros p t F. destruct (t_fault t) eqn:E; [exists (t_value t); constructor; exact E|]. destruct F as [F|F]; [congruence|]. destruct (t_text t) as [x|] eqn:X; [|congruence].
    eexists. apply (stands_other _ _ x); assumption.
  Qed.
  Lemma post_exists : forall w u l x, fine x -> exists w' v, postprocessed g client w u l x w' v.
  Proof.
    intros w u l x F. assert (SH : exists v, shows x v).
    { destruct x as [v|t|]; [exists v; constructor| |contradiction]. destruct (stands_exists "Unhandled exception " t F) as [v V]. exists v. constructor. exact V. }
    destruct SH as [v SV]. destruct (r_post g) as [f|] eqn:EP; [|exists w, v; apply post_none; assumption].
    assert (T : exists r p e, told x r p e).
    { destruct x as [y|t|]; [| |contradiction].
      - assert (D : (exists c m, y = PyFault c m) \/ (forall c m, y <> PyFault c m)) by (destruct y; try (right; intros; discriminate); left; eauto).
        destruct D as [(c & m & ->)|D]; do 3 eexists; [apply told_fault|apply told_value; exact D].
      - destruct (t_fault t) eqn:E; do 3 eexists; [apply told_raised; exact E|apply told_exception; exact E]. }
    destruct T as (r & p & e & T). pose proof (well_post _ well f w u client l r p e EP) as FP. destruct (f w u client l r p e) as [w1 [y|t|]] eqn:E; cbn [snd] in FP; [| |contradiction].
    - assert (D : y = PyNone \/ y <> PyNone) by (destruct y; (left; reflexivity) || (right; discriminate)). destruct D as [->|D].
      + exists w1, v. eapply post_passes; eassumption.
      + exists w1, y. eapply post_replaces; eassumption.
    - destruct (stands_exists "Unhandled exception in postprocessor " t FP) as [z Z]. exists w1, z. eapply post_raises; eassumption.
  Qed.
  Lemma ran_exists : forall w name u l, callable g name u -> is_object (PyTuple l) -> exists w2 x, method_ran g sys w name u l w2 x /\ fine x.
  Proof.
    intros w name u l (S & N & L) O. destruct (map_get name (r_methods g)) as [m|] eqn:K.
    - assert (SY : (forall f, m_kind m <> Plain f) -> (forall f, m_kind m <> With_context f) -> exists w2 x, method_ran g sys w name u l w2 x /\ fine x).
      { intros N1 N2. destruct (call_kind own (fun w n ps => dispatch_call own g client w n (Params ps)) g w (m_kind m) (Params l)) as [w2 x] eqn:E. exists w2, x. split; [eapply ran_system; [exact K|exact N1|exact N2|exact E]|].
        pose proof (safe_kind own g well (fun w n ps => dispatch_call own g client w n (Params ps)) (py_nesting (PyTuple l))) as F.
        specialize (F (fun w0 n0 l0 _ O0 T0 => match O0 with or_introl O1 => dispatch_strs own g client well w0 n0 l0 T0 O1 | or_intror P => dispatch_safe_post own g client well w0 n0 l0 P end) name m w (Params l) K I).
        rewrite E in F. apply F. intros l' EL. inversion EL; subst. split; [left; exact (object_strs _ O)|lia]. }
      destruct (m_kind m) eqn:MK.
      + destruct (f w l) as [w2 x] eqn:E. exists w2, x. split; [eapply ran_plain; eassumption|]. pose proof (well_plain _ well _ _ _ w l K MK) as F. rewrite E in F. exact F.
      + destruct (f w (Some l)) as [w2 x] eqn:E. exists w2, x. split; [eapply ran_context; eassumption|]. pose proof (well_context _ well _ _ _ w (Some l) K MK) as F. rewrite E in F. exact F.
      + apply SY; intros; discriminate.
      + apply SY; intros; discriminate.
      + apply SY; intros; discriminate.
      + apply SY; intros; discriminate.
    - destruct (r_default g) as [d|] eqn:D.
      + destruct (d w u l) as [w2 x] eqn:E. exists w2, x. split; [eapply ran_default; eassumption|]. pose proof (well_default _ well _ w u l D) as F. rewrite E in F. exact F.
      + do 2 eexists. split; [apply ran_unknown; [exact K|exact D|apply L; [exact K|reflexivity]]|exact I].
  Qed.
  Theorem handled_exists : forall w name u l, callable g name u -> is_object (PyTuple l) -> exists w' v, handled g client sys w name u l w' v.
  Proof.
    intros w name u l C O. set (names := match map_get name (r_methods g) with Some m => m_names m | None => None end).
    assert (N1 : forall m, known g name m -> names = m_names m) by (intros m K; unfold names; rewrite K; reflexivity).
    assert (N2 : unknown g name -> names = None) by (intro K; unfold names; rewrite K; reflexivity).
    assert (P : exists w1 t, preprocessed g client w name u l w1 t /\ match t with Some t => fine (Threw t) | None => True end).
    { destruct (r_pre g) as [f|] eqn:EP; [|exists w, None; split; [apply pre_none; exact EP|exact I]].
      pose proof (well_pre _ well f w u client l names EP) as F. destruct (f w u client l names) as [w1 [v|t|]] eqn:E; cbn [snd] in F; [| |contradiction].
      - exists w1, None. split; [eapply pre_passes; eassumption|exact I].
      - exists w1, (Some t). split; [eapply pre_refuses; eassumption|exact F]. }
    destruct P as (w1 & [t|] & P & F).
    - destruct (stands_exists "Unhandled exception in preprocessor " t F) as [r R]. destruct (post_exists w1 u l (Returned r) I) as (w3 & v & Q). exists w3, v. eapply handled_refused; eassumption.
    - destruct (ran_exists w1 name u l C O) as (w2 & x & R & FX). destruct (post_exists w2 u l x FX) as (w3 & v & Q). exists w3, v. eapply handled_runs; eassumption.
  Qed.

  (** ** Multicall *)
  Lemma get_item : forall k m, match dict_get (ustr k) m with Some v => item k m v | None => no_item k m end.
  Proof.
    intros k m. induction m as [|[q x] m IH]; [intros []|]. cbn [dict_get].
    assert (G : q <> PyStr (ustr k) -> match dict_get (ustr k) m with Some v => item k ((q, x) :: m) v | None => no_item k ((q, x) :: m) end).
    { intro NE. destruct (dict_get (ustr k) m).
      - destruct IH as (b & a & -> & NI). exists ((q, x) :: b), a. split; [reflexivity|]. intros [X|X]; [exact (NE X)|exact (NI X)].
      - intros [X|X]; [exact (NE X)|exact (IH X)]. }
    destruct q; try (apply G; discriminate). destruct (pystr_eqb (ustr k) s) eqn:E.
    - apply pystr_eqb_spec in E. subst s. exists [], m. split; [reflexivity|]. intros [].
    - apply G. intro X. inversion X as [Y]. rewrite Y in E. rewrite (proj2 (pystr_eqb_spec _ _) eq_refl) in E. discriminate E.
  Qed.
  Notation again := (fun w n ps => dispatch_call own g client w n (Params ps)).
  Lemma one_done : forall w e, is_object e -> callable_entry g e -> exists w1 r, multi_one own again w e = (w1, Returned r) /\ entry_done g client sys w e w1 r.
  Proof.
    intros w e O C. assert (NS : (forall m, e <> PyDict m) -> exists w1 r, multi_one own again w e = (w1, Returned r) /\ entry_done g client sys w e w1 r).
    { intro N. do 2 eexists. split; [|apply done_no_struct; exact N]. destruct e; try reflexivity. exfalso; eapply N; reflexivity. }
    destruct e as [| | | | | | | | | | |m| |]; try (apply NS; intros; discriminate). clear NS. cbn [multi_one].
    pose proof (get_item "params" m) as GP. destruct (dict_get (ustr "params") m) as [p|] eqn:EP; [|do 2 eexists; split; [reflexivity|apply done_no_params; exact GP]].
    pose proof (object_get _ _ _ O EP) as OP.
    assert (SQ : forall l, sequence p l -> is_object (PyTuple l) -> exists w1 r,
      match dict_get (ustr "methodName") m with
      | None => (w, Returned (fault_dict (PyInt FRPC_TYPE_ERROR) (PyStr (ustr "Cannot get methodName."))))
      | Some (PyStr s) => match py_encode s with
          | None => (w, Returned (fault_dict (PyInt FRPC_INTERNAL_ERROR) (PyStr (ustr "Cannot convert methodName to string." ++ own PE_Encode))))
          | Some b => match again w (c_string b) l with (w1, D_value (PyFault c m)) => (w1, Returned (fault_dict c m)) | (w1, D_value v) => (w1, Returned v) | (w1, _) => (w1, Crashed) end end
      | Some _ => (w, Returned (fault_dict (PyInt FRPC_INTERNAL_ERROR) (PyStr (ustr "Cannot convert methodName to string." ++ own PE_Type)))) end = (w1, Returned r) /\ entry_done g client sys w (PyDict m) w1 r).
    { intros l SL OL. pose proof (get_item "methodName" m) as GN. destruct (dict_get (ustr "methodName") m) as [n|] eqn:EN; [|do 2 eexists; split; [reflexivity|eapply done_no_name; eassumption]].
      pose proof (object_get _ _ _ O EN) as ON.
      assert (BN : forall text, (forall b u, n = PyStr u -> ~ same_str b u) -> exists w1 r, (w, Returned (fault_dict (PyInt FRPC_INTERNAL_ERROR) (PyStr (ustr "Cannot convert methodName to string." ++ text)))) = (w1, Returned r) /\ entry_done g client sys w (PyDict m) w1 r).
      { intros text NB. do 2 eexists; split; [reflexivity|eapply done_bad_name; eassumption]. }
      destruct n; try (apply BN; intros; discriminate). destruct (encode_str s ON) as [[U ->]|[U ->]].
      - assert (SS : same_str (flat_map utf8_char s) s) by (split; [exact U|reflexivity]). pose proof (C m _ s eq_refl GN SS) as CN. destruct CN as (_ & N0 & LL).
        rewrite (same_no_nul _ _ SS N0). destruct (handled_exists w (flat_map utf8_char s) s l) as (w1 & v & H); [repeat split; assumption|exact OL|].
        rewrite (dispatch_handled own g client _ _ _ _ _ _ SS N0 H).
        assert (D : (exists c x, v = PyFault c x) \/ (forall c x, v <> PyFault c x)) by (destruct v; try (right; intros; discriminate); left; eauto).
        destruct D as [(c & x & ->)|D].
        + exists w1. eexists. split; [reflexivity|]. eapply done_call; [exact GP|exact SL|exact GN|exact SS|exact N0|exact H|apply view_fault].
        + exists w1, v. split; [destruct v; try reflexivity; exfalso; eapply D; reflexivity|]. eapply done_call; [exact GP|exact SL|exact GN|exact SS|exact N0|exact H|apply view_value; exact D].
      - apply BN. intros b u E [UU _]. inversion E; subst. exact (U UU). }
    assert (NP : (forall l, ~ sequence p l) -> exists w1 r, (w, Returned (fault_dict (PyInt FRPC_TYPE_ERROR) (PyStr (ustr "Params must be an array.")))) = (w1, Returned r) /\ entry_done g client sys w (PyDict m) w1 r).
    { intro N. do 2 eexists; split; [reflexivity|eapply done_bad_params; eassumption]. }
    destruct p as [| | | | | | | | |l|l| | |]; try (apply NP; intros l [X|X]; discriminate).
    - apply (SQ l (or_introl eq_refl) OP).
    - apply (SQ l (or_intror eq_refl) OP).
  Qed.
  Lemma all_done : forall es w acc, is_object (PyTuple es) -> Forall (callable_entry g) es -> exists w2 rs, multi_all own again w acc es = (w2, Returned (PyList (acc ++ rs))) /\ entries_done g client sys w es w2 rs.
  Proof.
    induction es as [|e es IH]; intros w acc O C; [exists w, []; split; [cbn [multi_all]; rewrite app_nil_r; reflexivity|constructor]|].
    inversion C as [|? ? C1 C2]; subst. destruct O as [O1 O2]. destruct (one_done w e O1 C1) as (w1 & r & E & D). cbn [multi_all]. rewrite E.
    destruct (IH w1 (acc ++ [r]) O2 C2) as (w2 & rs & E2 & D2). exists w2, (r :: rs). split; [rewrite E2, <- app_assoc; reflexivity|econstructor; eassumption].
  Qed.
  Theorem multicall_done : forall w es, is_object (PyList es) -> Forall (callable_entry g) es ->
    exists w2 rs, sys Sys_multicall w [PyList es] w2 (Returned (PyList rs)) /\ entries_done g client sys w es w2 rs.
  Proof. intros w es O C. destruct (all_done es w [] O C) as (w2 & rs & E & D). exists w2, rs. split; [exact E|exact D]. Qed.
End Exists.

(** ** Signatures *)
Definition words_list (ws : list bytes) : py := PyList (map (fun w => PyStr (map b2z w)) ws).
Lemma type_letter : forall c w, type_word c = Some w <-> letter_word c w.
Proof.
  intros c w. split.
  - intro H. unfold type_word in H. cbv zeta in H.
    repeat match type of H with context [if b2z c =? ?n then _ else _] => destruct (Z.eqb_spec (b2z c) n) as [E|_]; [apply byte_of in E; subst c; inversion H; subst; constructor|] end. discriminate H.
  - intros []; reflexivity.
Qed.
Lemma loop_params : forall s k done cur, 2 <= k ->
  (forall s', (List.length s' < List.length s)%nat -> forall d l, signature_loop 0 d [] s' = Some l <-> exists ll, signature_words s' ll /\ l = d ++ map words_list ll) ->
  forall l, signature_loop k done cur s = Some l <->
    (exists ws, Forall2 letter_word s ws /\ l = done ++ [PyList (cur ++ map (fun w => PyStr (map b2z w)) ws)]) \/
    (exists s1 ws rest ll, s = s1 ++ x2c :: rest /\ Forall2 letter_word s1 ws /\ signature_words rest ll /\ l = done ++ PyList (cur ++ map (fun w => PyStr (map b2z w)) ws) :: map words_list ll).
Proof.
  induction s as [|c s IH]; intros k done cur K H l; cbn [signature_loop].
  - split.
    + intro E. inversion E; subst. left. exists []. split; [constructor|]. cbn [map]. rewrite app_nil_r. reflexivity.
    + intros [(ws & F & ->)|(s1 & ws & rest & ll & E & _)]; [|destruct s1; discriminate]. inversion F; subst. cbn [map]. rewrite app_nil_r. reflexivity.
  - destruct (Z.eqb_spec (b2z c) 58) as [E|NC].
    { apply byte_of in E. subst c. destruct (Z.eqb_spec k 1); [lia|]. split; [discriminate|].
      intros [(ws & F & ->)|(s1 & ws & rest & ll & E & F & _)]; [inversion F as [|? ? ? ? L]; inversion L|]. destruct s1; inversion E; subst. inversion F as [|? ? ? ? L]; inversion L. }
    destruct (Z.eqb_spec (b2z c) 44) as [E|NM].
    { apply byte_of in E. subst c. destruct (Z.ltb_spec k 2); [lia|]. rewrite (H s) by (cbn [List.length]; lia). split.
      - intros (ll & SW & ->). right. exists [], [], s, ll. split; [reflexivity|]. split; [constructor|]. split; [exact SW|]. cbn [map]. rewrite app_nil_r, <- app_assoc. reflexivity.
      - intros [(ws & F & ->)|(s1 & ws & rest & ll & E & F & SW & ->)]; [inversion F as [|? ? ? ? L]; inversion L|].
        destruct s1 as [|a s1]; [|inversion E; subst; inversion F as [|? ? ? ? L]; inversion L]. inversion E; subst. inversion F; subst. exists ll. split; [exact SW|]. cbn [map]. rewrite app_nil_r, <- app_assoc. reflexivity. }
    destruct (type_word c) as [w|] eqn:T.
    + destruct (Z.eqb_spec k 1); [lia|]. apply type_letter in T. rewrite (IH (k + 1) done (cur ++ [PyStr (map b2z w)])); [|lia|intros s' L; apply H; cbn [List.length]; lia]. split.
      * intros [(ws & F & ->)|(s1 & ws & rest & ll & -> & F & SW & ->)].
        -- left. exists (w :: ws). split; [constructor; assumption|]. cbn [map]. rewrite <- app_assoc. reflexivity.
        -- right. exists (c :: s1), (w :: ws), rest, ll. split; [reflexivity|]. split; [constructor; assumption|]. split; [exact SW|]. cbn [map]. rewrite <- app_assoc. reflexivity.
      * intros [(ws & F & ->)|(s1 & ws & rest & ll & E & F & SW & ->)].
        -- inversion F as [|? w' ? ws' LW F']; subst. assert (w' = w) by (apply type_letter in LW; apply type_letter in T; congruence). subst w'. left. exists ws'. split; [exact F'|]. cbn [map]. rewrite <- app_assoc. reflexivity.
        -- destruct s1 as [|a s1]; inversion E; subst; [contradiction NM; reflexivity|]. inversion F as [|? w' ? ws' LW F']; subst. assert (w' = w) by (apply type_letter in LW; apply type_letter in T; congruence). subst w'.
           right. exists s1, ws', rest, ll. split; [reflexivity|]. split; [exact F'|]. split; [exact SW|]. cbn [map]. rewrite <- app_assoc. reflexivity.
    + split; [discriminate|]. assert (NL : forall w, ~ letter_word c w) by (intros w L; apply type_letter in L; congruence).
      intros [(ws & F & ->)|(s1 & ws & rest & ll & E & F & _)]; [inversion F; subst; exfalso; eapply NL; eassumption|].
      destruct s1 as [|a s1]; inversion E; subst; [contradiction NM; reflexivity|]. inversion F; subst. exfalso; eapply NL; eassumption.
Qed.
Lemma loop_words : forall n s, (List.length s <= n)%nat -> forall d l, signature_loop 0 d [] s = Some l <-> exists ll, signature_words s ll /\ l = d ++ map words_list ll.
Proof.
  induction n as [|n IH]; intros s L d l.
  - destruct s; [|cbn in L; lia]. cbn [signature_loop]. split.
    + intro E. inversion E; subst. exists [[]]. split; [repeat constructor|reflexivity].
    + intros (ll & SW & ->). inversion SW as [? ws LW|? ? ? ? P]; subst; [inversion LW as [| |? ? P]; subst; [reflexivity|inversion P]|inversion P; subst; discriminate].
  - destruct s as [|c s].
    { cbn [signature_loop]. split.
      + intro E. inversion E; subst. exists [[]]. split; [repeat constructor|reflexivity].
      + intros (ll & SW & ->). inversion SW as [? ws LW|? ? ? ? P]; subst; [inversion LW as [| |? ? P]; subst; [reflexivity|inversion P]|inversion P; subst; discriminate]. }
    (* the first character of what is not empty is a letter *)
    assert (FL : forall ll, signature_words (c :: s) ll -> exists w, letter_word c w /\ (s = [] \/ exists r, s = x3a :: r)).
    { intros ll SW. inversion SW as [? ws LW|? ? ? ? P]; subst.
      - inversion LW as [|? w HW|? ? P]; subst; [exists w; auto|]. inversion P as [? w rest ws' HW]; subst. exists w. split; [exact HW|right; eauto].
      - inversion P as [? w rest' ws' HW]; subst. cbn [app] in H0. inversion H0; subst. exists w. split; [exact HW|right; eexists; reflexivity]. }
    cbn [signature_loop]. destruct (Z.eqb_spec (b2z c) 58) as [E|NC].
    { apply byte_of in E. subst c. split; [discriminate|]. intros (ll & SW & _). destruct (FL _ SW) as (w & LW & _). inversion LW. }
    destruct (Z.eqb_spec (b2z c) 44) as [E|NM].
    { apply byte_of in E. subst c. split; [discriminate|]. intros (ll & SW & _). destruct (FL _ SW) as (w & LW & _). inversion LW. }
    destruct (type_word c) as [w|] eqn:T; [|split; [discriminate|]; intros (ll & SW & _); destruct (FL _ SW) as (w & LW & _); apply type_letter in LW; congruence].
    apply type_letter in T. change (0 =? 1) with false. cbv iota. change (0 + 1) with 1. cbn [app].
    destruct s as [|c2 s].
    { cbn [signature_loop]. split.
      + intro E. inversion E; subst. exists [[w]]. split; [apply sig_last, last_result; exact T|reflexivity].
      + intros (ll & SW & ->). inversion SW as [? ws LW|a ? ? ? P]; subst.
        * inversion LW as [|? w' HW|? ? P]; subst; [|inversion P]. assert (w' = w) by (apply type_letter in HW; apply type_letter in T; congruence). subst w'. reflexivity.
        * inversion P; subst. match goal with H : _ = [c] |- _ => cbn in H; inversion H end. }
    cbn [signature_loop]. destruct (Z.eqb_spec (b2z c2) 58) as [E|NC2].
    2:{ split; [|intros (ll & SW & _); destruct (FL _ SW) as (w' & _ & [X|[r X]]); inversion X; subst; contradiction NC2; reflexivity].
        intro E. exfalso. change (1 <? 2) with true in E. change (1 =? 1) with true in E. destruct (b2z c2 =? 44); [discriminate E|]. destruct (type_word c2); discriminate E. }
    apply byte_of in E. subst c2. change (1 =? 1) with true. cbv iota.
    rewrite (loop_params s (1 + 1) d [PyStr (map b2z w)]); [|lia|intros s' LS d' l'; apply IH; cbn [List.length] in *; lia]. split.
    + intros [(ws & F & ->)|(s1 & ws & rest & ll & -> & F & SW & ->)].
      * exists [w :: ws]. split; [apply sig_last, last_part; constructor; assumption|reflexivity].
      * exists ((w :: ws) :: ll). split; [|reflexivity]. apply (sig_more (c :: x3a :: s1) (w :: ws) rest ll); [constructor; assumption|exact SW].
    + intros (ll & SW & ->). inversion SW as [? ws LW|a ws rest ll' P SR EQ]; subst.
      * inversion LW as [| |? ? P]; subst. inversion P as [? w' ? ws' HW F]; subst. assert (w' = w) by (apply type_letter in HW; apply type_letter in T; congruence). subst w'. left. exists ws'. split; [exact F|reflexivity].
      * inversion P as [? w' s1 ws' HW F]; subst. cbn [app] in EQ. inversion EQ; subst. assert (w' = w) by (apply type_letter in HW; apply type_letter in T; congruence). subst w'.
        right. exists s1, ws', rest, ll'. split; [reflexivity|]. split; [exact F|]. split; [exact SR|reflexivity].
Qed.
Theorem to_signature_words : forall s x, to_signature s = Some x <-> exists l, signature_words s l /\ x = words_object l.
Proof.
  intros s x. unfold to_signature. destruct (signature_loop 0 [] [] s) as [l|] eqn:E; cbn [option_map].
  - apply (loop_words (List.length s) s (le_n _)) in E. destruct E as (ll & SW & ->). split.
    + intro X. inversion X; subst. exists ll. split; [exact SW|reflexivity].
    + intros (l2 & SW2 & ->). f_equal. assert (E1 : signature_loop 0 [] [] s = Some (map words_list ll)) by (apply (loop_words (List.length s) s (le_n _)); eauto).
      assert (E2 : signature_loop 0 [] [] s = Some (map words_list l2)) by (apply (loop_words (List.length s) s (le_n _)); eauto). unfold words_object. f_equal.
      rewrite E1 in E2. inversion E2 as [H0]. exact H0.
  - split; [discriminate|]. intros (l2 & SW2 & ->). assert (E2 : signature_loop 0 [] [] s = Some (map words_list l2)) by (apply (loop_words (List.length s) s (le_n _)); eauto). congruence.
Qed.
