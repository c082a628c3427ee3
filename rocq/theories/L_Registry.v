(** Lemmas about the method registry. *)
From Coq Require Import Lia.
From Verif Require Import Base Value Text M_Marshal M_BinUnmarshal M_TreeBuilder M_Values M_Base64 M_Json M_Iso M_Url M_Xml M_Registry L_Base.

Section Registry.
  Context {W : Type}.
  Variable message : exn -> bytes.

  Lemma nesting_in l x : In x l -> (nesting x < nesting (VArray l))%nat.
  Proof. cbn. induction l as [|y l IH]; intro H; [contradiction|]. destruct H as [<-|H]; cbn; [lia|]. specialize (IH H). lia. Qed.
  Lemma nesting_member m k x : In (k, x) m -> (nesting x < nesting (VStruct m))%nat.
  Proof. cbn. induction m as [|y m IH]; intro H; [contradiction|]. destruct H as [E|H]; cbn; [subst y; cbn; lia|]. specialize (IH H). lia. Qed.
  Lemma map_get_in {A} k (m : list (bytes * A)) x : map_get k m = Some x -> exists k', In (k', x) m.
  Proof.
    induction m as [|(k', y) m IH]; cbn; [discriminate|]. destruct (bytes_cmp k k'); intro H; [inversion H; subst; eauto| |];
      destruct (IH H) as (k2 & H2); eauto.
  Qed.

  (** The same results for calls that agree on less nested parameters. *)
  Lemma multi_entry_ext call1 call2 (g : registry (W:=W)) m n : (nesting (VStruct m) <= n)%nat ->
    (forall w h ps, (nesting (VArray ps) < n)%nat -> call1 w h ps = call2 w h ps) ->
    forall w, multi_entry call1 g w m = multi_entry call2 g w m.
  Proof.
    intros HN HC w. unfold multi_entry. destruct (bind (struct_at (str "methodName") m) as_string) as [a| |]; try reflexivity.
    destruct (map_get a (g_methods g)); [|reflexivity].
    destruct (bind (struct_at (str "params") m) as_array) as [ps| |] eqn:EP; try reflexivity. apply HC.
    unfold struct_at in EP. destruct (map_get (str "params") m) as [v|] eqn:EG; [|discriminate]. cbn in EP.
    destruct v; try discriminate. inversion EP; subst. apply map_get_in in EG as (k & HI). apply nesting_member in HI. lia.
  Qed.
  Lemma multi_loop_ext call1 call2 (g : registry (W:=W)) n : (forall w h ps, (nesting (VArray ps) < n)%nat -> call1 w h ps = call2 w h ps) ->
    forall l w acc, (nesting (VArray l) <= n)%nat -> multi_loop message call1 g w acc l = multi_loop message call2 g w acc l.
  Proof.
    intro HC. induction l as [|v l IH]; intros w acc HN; [reflexivity|].
    assert (HL : (nesting (VArray l) <= n)%nat) by (cbn in *; lia).
    pose proof (nesting_in (v :: l) v (or_introl eq_refl)). cbn [multi_loop]. destruct v; try (apply IH; assumption).
    rewrite (multi_entry_ext call1 call2 g m n ltac:(lia) HC w). destruct (multi_entry call2 g w m) as [w' x].
    destruct (entry_result message x); [apply IH; assumption|reflexivity].
  Qed.
  Lemma multicall_ext call1 call2 (g : registry (W:=W)) n params : (nesting (VArray params) <= S n)%nat ->
    (forall w h ps, (nesting (VArray ps) < n)%nat -> call1 w h ps = call2 w h ps) ->
    forall w, multicall message call1 g w params = multicall message call2 g w params.
  Proof.
    intros HN HC w. unfold multicall. destruct (negb (zlen params =? 1)); [reflexivity|].
    destruct (bind (check_items (str "A") params) _) as [l| |] eqn:E; try reflexivity.
    apply (multi_loop_ext call1 call2 g n HC). destruct (check_items (str "A") params) as [[]| |]; try discriminate. cbn [bind] in E.
    unfold array_at in E. destruct (nth_error params (Z.to_nat 0)) as [v|] eqn:EN; [|discriminate]. cbn [bind] in E. destruct v; try discriminate.
    inversion E; subst. apply nth_error_In in EN. apply nesting_in in EN. cbn in *. lia.
  Qed.

  Lemma call_fuel : forall k1 k2 (g : registry (W:=W)) w h params, (nesting (VArray params) < k1)%nat -> (nesting (VArray params) < k2)%nat ->
    call_method message k1 g w h params = call_method message k2 g w h params.
  Proof.
    induction k1 as [|k1 IH]; intros k2 g w h params H1 H2; [lia|]. destruct k2 as [|k2]; [lia|].
    destruct h; try reflexivity. cbn [call_method].
    destruct (nesting (VArray params)) as [|n] eqn:EN; [cbn in EN; lia|].
    apply multicall_ext with (n := n); [lia|]. intros w' h' ps HP. apply IH; lia.
  Qed.

  Lemma call_multicall (g : registry (W:=W)) w params :
    call_registered message g w Multicall params = multicall message (call_registered message g) g w params.
  Proof.
    unfold call_registered. cbn [call_method]. destruct (nesting (VArray params)) as [|n] eqn:EN; [cbn in EN; lia|].
    apply multicall_ext with (n := n); [lia|]. intros w' h' ps HP. exact (call_fuel (S n) (S (nesting (VArray ps))) g w' h' ps ltac:(lia) ltac:(lia)).
  Qed.

  (** ** Multicall *)
  Lemma multicall_array call (g : registry (W:=W)) w l : multicall message call g w [VArray l] = multi_loop message call g w [] l.
  Proof. reflexivity. Qed.
End Registry.

(** ** Texts *)
Lemma c_str_no_nul s : ~ In x00 (c_str s).
Proof.
  unfold c_str. induction s as [|c s IH]; [intros []|]. cbn [break_at]. destruct (is_char 0 c) eqn:E; [intros []|].
  destruct (break_at 0 s) as [a b]. cbn [fst] in *. intros [H|H]; [|contradiction]. subst c. discriminate.
Qed.
Lemma c_str_same s : ~ In x00 s -> c_str s = s.
Proof.
  unfold c_str. induction s as [|c s IH]; intro H; [reflexivity|]. cbn [break_at].
  destruct (is_char 0 c) eqn:E.
  - elim H. left. apply b2z_inj. unfold is_char in E. apply Z.eqb_eq in E. rewrite E. reflexivity.
  - destruct (break_at 0 s) as [a b]. cbn [fst] in *. f_equal. apply IH. intro HI. apply H. right. assumption.
Qed.

(** ** The binary marshaller behind the interface *)
Lemma bin_ma_run ver cs : forall s, ma_run (bin_ma ver) s cs = (fst (bin_run ver cs), tt, snd (bin_run ver cs)).
Proof.
  induction cs as [|c r IH]; intro s; cbn [ma_run bin_run]; [destruct s; reflexivity|].
  cbn [ma_call bin_ma]. destruct (bin_pack ver c) as [o [f|]]; [reflexivity|]. change (mkMar _ _ _ _) with (bin_ma ver). rewrite IH. destruct (bin_run ver r) as [o' f]. reflexivity.
Qed.
