(** Proofs about the references of the builder of Python objects. *)
From Coq Require Import Lia.
From Verif Require Import Base Value M_Marshal M_BinUnmarshal M_Python M_PyRefs S_Events S_PyRefs L_Base L_BinUnmarshal L_BinSafety L_Nesting L_Origin.

Definition lost (x : Z * holder) : bool := match snd x with H_nobody => true | _ => false end.
Definition losses (l : list (Z * holder)) : Z := Z.of_nat (length (filter lost l)).

Lemma among_In : forall x l, among x l = true <-> In x l.
Proof. intros x l. unfold among. rewrite existsb_exists. split; [intros (y & I & E); apply Z.eqb_eq in E; subst; exact I|intro I; exists x; split; [exact I|apply Z.eqb_refl]]. Qed.
Lemma among_not : forall x l, among x l = false <-> ~ In x l.
Proof.
  intros x l. pose proof (among_In x l) as A. destruct (among x l); split; intro H; [discriminate|exfalso; apply H; apply A; reflexivity| |reflexivity].
  intro X. apply A in X. discriminate.
Qed.

Fixpoint dead_after (dead : list Z) (l : list (Z * holder)) : list Z :=
  match l with
  | [] => dead
  | (i, h) :: r => if among i dead || match h with H_in c => among c dead | _ => false end then dead_after (i :: dead) r else dead_after dead r
  end.
Lemma release_app : forall l dead m, release dead (l ++ m) = release dead l ++ release (dead_after dead l) m.
Proof. induction l as [|(i & h) l IH]; intros dead m; [reflexivity|]. cbn [app release dead_after]. destruct (_ || _); [apply IH|cbn [app]; f_equal; apply IH]. Qed.
Lemma dead_app : forall l dead m, dead_after dead (l ++ m) = dead_after (dead_after dead l) m.
Proof. induction l as [|(i & h) l IH]; intros dead m; [reflexivity|]. cbn [app dead_after]. destruct (_ || _); apply IH. Qed.

(** What hangs on [r], and what is lost. *)
Inductive hangs (r : Z) : list (Z * holder) -> Prop :=
| hangs_nil : hangs r []
| hangs_lost : forall l i, hangs r l -> i <> r -> ~ In i (map fst l) -> hangs r (l ++ [(i, H_nobody)])
| hangs_root : forall l, hangs r l -> ~ In r (map fst l) -> hangs r (l ++ [(r, H_builder)])
| hangs_in : forall l i c h, hangs r l -> In (c, h) l -> h <> H_nobody -> i <> r -> ~ In i (map fst l) -> hangs r (l ++ [(i, H_in c)]).

Lemma hangs_release : forall r l, hangs r l -> release [r] l = filter lost l /\ (forall x, In x (dead_after [r] l) <-> x = r \/ exists h, In (x, h) l /\ h <> H_nobody).
Proof.
  intros r l H. induction H as [|l i H (IH & D) N F|l H (IH & D) F|l i c h H (IH & D) I HN N F].
  - split; [reflexivity|]. intro x. cbn. split; [intros [E|[]]; left; symmetry; exact E|intros [E|(h & [] & _)]; left; symmetry; exact E].
  - assert (A: among i (dead_after [r] l) = false).
    { apply among_not. intro X. apply D in X. destruct X as [X|(h & X & _)]; [congruence|]. apply F. change i with (fst (i, h)). apply in_map. exact X. }
    split.
    + rewrite release_app, filter_app, IH. cbn [release]. rewrite A. reflexivity.
    + intro x. rewrite dead_app. cbn [dead_after]. rewrite A. cbn [orb]. rewrite D. split; intros [E|(h & X & Y)]; auto; right; exists h; split; auto; [apply in_or_app; auto|].
      apply in_app_or in X. destruct X as [X|[X|[]]]; [exact X|]. inversion X; subst. congruence.
  - assert (A: among r (dead_after [r] l) = true) by (apply among_In, D; auto).
    split.
    + rewrite release_app, filter_app, IH. cbn [release]. rewrite A. reflexivity.
    + intro x. rewrite dead_app. cbn [dead_after]. rewrite A. cbn [orb]. split.
      * intros [E|X]; [auto|]. apply D in X. destruct X as [E|(h & X & Y)]; [auto|]. right. exists h. split; [apply in_or_app; auto|exact Y].
      * intros [E|(h & X & Y)]; [left; auto|]. apply in_app_or in X. destruct X as [X|[X|[]]]; [right; apply D; right; exists h; auto|]. inversion X; subst. left. reflexivity.
  - assert (A: among c (dead_after [r] l) = true) by (apply among_In, D; right; exists h; auto).
    split.
    + rewrite release_app, filter_app, IH. cbn [release]. rewrite A, orb_true_r. reflexivity.
    + intro x. rewrite dead_app. cbn [dead_after]. rewrite A, orb_true_r. split.
      * intros [E|X]; [right; exists (H_in c); split; [apply in_or_app; right; left; subst; reflexivity|discriminate]|]. apply D in X. destruct X as [E|(k & X & Y)]; [auto|]. right. exists k. split; [apply in_or_app; auto|exact Y].
      * intros [E|(k & X & Y)]; [right; apply D; auto|]. apply in_app_or in X. destruct X as [X|[X|[]]]; [right; apply D; right; exists k; auto|]. inversion X; subst. left. reflexivity.
Qed.

Lemma filter_lost_hangs : forall r l, hangs r l -> forall n, (forall x, In x (map fst l) -> x < n) -> hangs n (filter lost l).
Proof.
  intros r l H n. induction H as [|l i H IH N F|l H IH F|l i c h H IH I HN N F]; intro B; [constructor| | |].
  all: assert (B': forall x, In x (map fst l) -> x < n) by (intros x X; apply B; rewrite map_app; apply in_or_app; auto); rewrite filter_app; cbn [filter lost snd]; rewrite ?app_nil_r; auto.
  assert (i < n) by (apply B; rewrite map_app; apply in_or_app; right; left; reflexivity).
  constructor; [auto|lia|]. intro X. apply F. apply in_map_iff in X. destruct X as (y & <- & Y). apply filter_In in Y. apply in_map. tauto.
Qed.

(** The state between the calls. *)
Record good (call : bool) (open : list open_container) (name : option bytes) (b : rbuilder) : Prop := {
  g_error : rb_error b = false;
  g_ret : exists r, rb_ret b = Some r /\ hangs r (rb_held b) /\ r < rb_next b;
  g_ids : forall x, In x (map fst (rb_held b)) -> x < rb_next b;
  g_kinds : map snd (rb_stack b) = map (fun o => match snd (fst o) with KStruct => true | KArray => false end) open ++ (if call then [false] else []);
  g_alive : forall c, In c (map fst (rb_stack b)) -> exists h, In (c, h) (rb_held b) /\ h <> H_nobody;
  g_first : rb_stack b <> [] -> rb_first b = false;
  g_tail : Forall (fun o => snd o = false) (tl open);
  g_name : match open with (_, KStruct, true) :: _ => name = Some (rb_member b) | _ => name = None end
}.

Lemma losses_app : forall a b, losses (a ++ b) = losses a + losses b.
Proof. intros. unfold losses. rewrite filter_app, app_length. lia. Qed.

Lemma left_losses : forall call open name b, good call open name b -> Z.of_nat (length (give_back (rb_ret b) (rb_held b))) = losses (rb_held b).
Proof. intros call open name b G. destruct (g_ret _ _ _ _ G) as (r & E & H & _). rewrite E. cbn [give_back]. rewrite (proj1 (hangs_release _ _ H)). reflexivity. Qed.

(** After a failure. *)
Lemma filter_lost_idem : forall l, losses (filter lost l) = losses l.
Proof. intro l. unfold losses. f_equal. f_equal. induction l as [|x l IH]; [reflexivity|]. cbn [filter]. destruct (lost x) eqn:E; [cbn [filter]; rewrite E; f_equal; exact IH|exact IH]. Qed.

Lemma losses_nobody : forall i, losses [(i, H_nobody)] = 1.
Proof. reflexivity. Qed.
Lemma losses_held : forall i h, h <> H_nobody -> losses [(i, h)] = 0.
Proof. intros i h N. unfold losses. cbn. destruct h; try reflexivity. congruence. Qed.

Lemma good_take : forall call open name b h,
  good call open name b -> h = H_nobody \/ (exists c k, h = H_in c /\ In (c, k) (rb_held b) /\ k <> H_nobody) -> good call open name (rb_take h b).
Proof.
  intros call open name b h G K. destruct G as [Ge (r & Er & Hr & Lr) Gi Gk Ga Gf Gt Gn].
  assert (F: ~ In (rb_next b) (map fst (rb_held b))) by (intro X; apply Gi in X; lia).
  constructor; cbn [rb_take rb_error rb_ret rb_held rb_next rb_stack rb_first rb_member]; auto.
  - exists r. split; [exact Er|]. split; [|lia].
    destruct K as [->|(c & k & -> & I & N)]; [apply hangs_lost; [exact Hr|lia|exact F]|apply hangs_in with k; [exact Hr|exact I|exact N|lia|exact F]].
  - intros x X. rewrite map_app in X. apply in_app_or in X. destruct X as [X|[X|[]]]; [apply Gi in X; lia|]. cbn in X. lia.
  - intros c X. destruct (Ga c X) as (k & I & N). exists k. split; [apply in_or_app; auto|exact N].
Qed.

Definition kinds (o : list open_container) : list bool := map (fun o => match snd (fst o) with KStruct => true | KArray => false end) o.
Lemma take_same : forall o o', take_item o = Some o' -> Forall (fun o => snd o = false) (tl o) ->
  kinds o' = kinds o /\ length o' = length o /\ Forall (fun o => snd o = false) o'.
Proof.
  intros o o' H T. destruct o as [|((n & k) & m) r]; [cbn in H; inversion H; repeat split; constructor|]. cbn in H, T.
  destruct k; [destruct m; [|discriminate]|]; destruct (0 <? n); inversion H; repeat split; constructor; auto.
Qed.
Lemma name_none : forall (o : list open_container) (m : bytes), Forall (fun o => snd o = false) o -> match o with (_, KStruct, true) :: _ => (None : option bytes) = Some m | _ => (None : option bytes) = None end.
Proof. intros o m F. destruct o as [|((n & k) & t) r]; [reflexivity|]. inversion F; subst. cbn in *. subst. destruct k; reflexivity. Qed.

Lemma good_move : forall call open name b open',
  good call open name b -> kinds open' = kinds open -> Forall (fun o => snd o = false) open' -> good call open' None b.
Proof.
  intros call open name b open' G K F. destruct G as [Ge Gr Gi Gk Ga Gf Gt Gn]. constructor; auto.
  - rewrite Gk. unfold kinds in K. rewrite K. reflexivity.
  - destruct F; [constructor|assumption].
  - apply name_none. exact F.
Qed.

Definition name_bad (name : option bytes) : bool := match name with Some k => match key_of k with None => true | _ => false end | None => false end.
Definition name_cost (name : option bytes) : Z := match name with Some k => if non_ascii k then 1 else 0 | None => 0 end.

Definition placed (b' : rbuilder) : Prop := rb_first b' = false /\ exists h, In (rb_next b' - 1, h) (rb_held b') /\ h <> H_nobody.

Lemma place_in : forall call open open' name b c d s,
  good call open name b -> take_item open = Some open' -> rb_stack b = (c, d) :: s ->
  alive c b = true /\ good call open' None (rb_take (H_in c) b) /\ losses (rb_held (rb_take (H_in c) b)) = losses (rb_held b) /\ placed (rb_take (H_in c) b).
Proof.
  intros call open open' name b c d s G T E. destruct (take_same _ _ T (g_tail _ _ _ _ G)) as (K & L & F).
  destruct (g_alive _ _ _ _ G c) as (k & I & N); [rewrite E; left; reflexivity|].
  split; [apply among_In; change c with (fst (c, k)); apply in_map; exact I|].
  split; [apply good_move with open name; auto; apply good_take; [exact G|right; exists c, k; auto]|].
  cbn [rb_take rb_held]. split; [rewrite losses_app, losses_held by discriminate; lia|].
  split; [cbn; apply (g_first _ _ _ _ G); rewrite E; discriminate|].
  cbn [rb_take rb_next rb_held]. exists (H_in c). split; [|discriminate]. apply in_or_app. right. left. f_equal. lia.
Qed.

Lemma place_good : forall call open open' name b,
  good call open name b -> take_item open = Some open' -> call = true \/ open <> [] \/ rb_first b = true ->
  if name_bad name then rb_place b = (rb_fail b, None)
  else exists b', rb_place b = (b', None) /\ good call open' None b' /\ losses (rb_held b') = losses (rb_held b) + name_cost name /\ placed b'.
Proof.
  intros call open open' name b G T M. destruct (take_same _ _ T (g_tail _ _ _ _ G)) as (K & L & F).
  pose proof (g_kinds _ _ _ _ G) as GK. pose proof (g_name _ _ _ _ G) as GN. unfold rb_place. rewrite (g_error _ _ _ _ G).
  destruct open as [|((n & k) & m) r].
  - subst name. cbn [name_bad name_cost]. cbn [map app] in GK.
    destruct call.
    + destruct (rb_stack b) as [|(c & d) s] eqn:E; [discriminate|]. cbn in GK. inversion GK; subst.
      destruct (place_in _ _ _ _ _ _ _ _ G T E) as (A & B & C & D). rewrite A. eexists. split; [reflexivity|]. split; [exact B|]. split; [lia|exact D].
    + destruct M as [M|[M|M]]; [discriminate|congruence|].
      destruct (rb_stack b) as [|(c & d) s] eqn:E; [|discriminate]. cbn in T. inversion T; subst open'.
      destruct (g_ret _ _ _ _ G) as (z & Ez & Hz & Lz).
      unfold rb_is_first. rewrite (g_error _ _ _ _ G), M, Ez. cbn [give_back]. rewrite (proj1 (hangs_release _ _ Hz)).
      eexists. split; [reflexivity|].
      assert (I: forall x, In x (map fst (filter lost (rb_held b))) -> x < rb_next b).
      { intros x X. apply (g_ids _ _ _ _ G). apply in_map_iff in X. destruct X as (y & <- & Y). apply filter_In in Y. apply in_map. tauto. }
      split; [|split; [cbn [rb_held]; rewrite losses_app, filter_lost_idem, losses_held by discriminate; lia|]].
      * constructor; cbn [rb_error rb_ret rb_held rb_next rb_stack rb_first rb_member]; auto.
        -- exists (rb_next b). split; [reflexivity|]. split; [|lia]. apply hangs_root; [apply filter_lost_hangs with z; [exact Hz|apply (g_ids _ _ _ _ G)]|]. intro X. apply I in X. lia.
        -- intros x X. rewrite map_app in X. apply in_app_or in X. destruct X as [X|[X|[]]]; [apply I in X; lia|]. cbn in X. lia.
        -- rewrite E. reflexivity.
        -- rewrite E. intros c [].
      * split; [reflexivity|]. cbn. exists H_builder. split; [|discriminate]. apply in_or_app. right. left. f_equal. lia.
  - cbn [map app] in GK. destruct (rb_stack b) as [|(c & d) s] eqn:E; [discriminate|]. cbn in GK. inversion GK as [[Ed Es]]. cbn [fst snd] in Ed.
    destruct k; [destruct m|].
    + subst d name. cbn [name_bad name_cost]. destruct (key_of (rb_member b)); [|reflexivity].
      destruct (non_ascii (rb_member b)).
      * assert (G': good call ((n, KStruct, true) :: r) (Some (rb_member b)) (rb_take H_nobody b)) by (apply good_take; auto).
        destruct (place_in _ _ _ _ _ c true s G' T E) as (A & B & C & D). rewrite A. eexists. split; [reflexivity|]. split; [exact B|]. split; [|exact D].
        rewrite C. cbn [rb_take rb_held]. rewrite losses_app, losses_nobody. lia.
      * destruct (place_in _ _ _ _ _ _ _ _ G T E) as (A & B & C & D). rewrite A. eexists. split; [reflexivity|]. split; [exact B|]. split; [lia|exact D].
    + discriminate T.
    + assert (EN: name = None) by (destruct m; exact GN). subst name d. cbn [name_bad name_cost].
      destruct (place_in _ _ _ _ _ _ _ _ G T E) as (A & B & C & D). rewrite A. eexists. split; [reflexivity|]. split; [exact B|]. split; [lia|exact D].
Qed.

(** After a failure. *)
Definition broken (b : rbuilder) : Prop := rb_error b = true /\ rb_ret b = None.
Lemma run_broken : forall pass l o b, broken b -> nest_run (NBody o) l <> None ->
  exists b', rb_run pass b l = (b', None) /\ broken b' /\ Z.of_nat (length (rb_held b')) = Z.of_nat (length (rb_held b)) + nulls l.
Proof.
  intros pass. induction l as [|e l IH]; intros o b (E & R) W; [exists b; cbn; repeat split; auto; lia|].
  cbn [nest_run] in W. destruct (nest_step (NBody o) e) as [s|] eqn:S; [|congruence].
  assert (S': exists o', s = NBody o').
  { destruct e; cbn [nest_step] in S; try discriminate; try (destruct (take_item o); [|discriminate]; inversion S; eauto; fail);
    unfold close_item, name_item in S; destruct o as [|((n0 & [|]) & [|]) r]; try discriminate; match type of S with (if ?c then _ else _) = _ => destruct c; [|discriminate] end; inversion S; eauto. }
  destruct S' as (o' & ->).
  cbn [rb_run].
  assert (Q: exists b', rb_step pass b e = (b', None) /\ broken b' /\ Z.of_nat (length (rb_held b')) = Z.of_nat (length (rb_held b)) + nulls [e]).
  { destruct e; cbn [nest_step] in S; try discriminate; cbn [rb_step]; unfold rb_value, rb_open, rb_close, rb_place, rb_is_first; rewrite ?E;
    (eexists; split; [reflexivity|]; split; [split; assumption|]; cbn; rewrite ?app_length; cbn; lia). }
  destruct Q as (b' & -> & B & LQ). destruct (IH o' b' B W) as (b2 & Rn & B2 & L2). exists b2. split; [exact Rn|]. split; [exact B2|].
  rewrite L2, LQ. unfold nulls. cbn [filter]. destruct (is_null e); cbn [length]; lia.
Qed.
Lemma fail_broken : forall call open name b, good call open name b -> broken (rb_fail b) /\ Z.of_nat (length (rb_held (rb_fail b))) = losses (rb_held b).
Proof. intros. split; [split; reflexivity|]. apply left_losses with call open name. assumption. Qed.

Definition ends (x : rbuilder * option fail) : list (Z * holder) * option fail := let '(b, f) := x in (give_back (rb_ret b) (rb_held b), f).

Lemma good_push : forall call open b n k, good call open None b -> Forall (fun o => snd o = false) open -> placed b ->
  good call ((n, k, false) :: open) None (rb_push (rb_next b - 1) (match k with KStruct => true | KArray => false end) b).
Proof.
  intros call open b n k G F (P & h & I & N). destruct G as [Ge Gr Gi Gk Ga Gf Gt Gn].
  constructor; cbn [rb_push rb_error rb_ret rb_held rb_next rb_stack rb_first rb_member map fst snd app]; auto.
  - rewrite Gk. reflexivity.
  - intros c [<-|X]; [exists h; auto|auto].
  - destruct k; reflexivity.
Qed.

Lemma good_run : forall pass l call open name b,
  good call open name b -> nest_run (NBody open) l <> None ->
  call = true \/ (top_values (length open) l + (if rb_first b then 0 else 1) <= 1)%nat ->
  exists left, ends (rb_run pass b l) = (left, None) /\ Z.of_nat (length left) = losses (rb_held b) + never_given_back pass name l.
Proof.
  intros pass. induction l as [|e l IH]; intros call open name b G W M.
  - cbn. eexists. split; [reflexivity|]. rewrite (left_losses _ _ _ _ G). lia.
  - assert (GE := g_error _ _ _ _ G).
    assert (BRK: forall o', nest_run (NBody o') l <> None -> exists left, ends (rb_run pass (rb_fail b) l) = (left, None) /\ Z.of_nat (length left) = losses (rb_held b) + nulls l).
    { intros o' W'. destruct (fail_broken _ _ _ _ G) as (B & LB). destruct (run_broken pass l o' _ B W') as (b' & -> & (Eb & Rb) & Lb).
      cbn [ends]. rewrite Rb. cbn [give_back]. eexists. split; [reflexivity|]. lia. }
    assert (PL: forall o', brings e = true -> take_item open = Some o' -> call = true \/ open <> [] \/ rb_first b = true).
    { intros o' Br T. destruct M as [M|M]; [auto|]. destruct open; [|right; left; discriminate]. right; right. cbn [top_values length] in M. rewrite Br in M. cbn in M. destruct (rb_first b); [reflexivity|lia]. }
    assert (VAL: forall o', brings e = true -> opens e = false -> closes e = false -> take_item open = Some o' -> nest_run (NBody o') l <> None ->
      match e with EMember k => Some k | _ => @None bytes end = None -> match e with EFault _ _ => 1 | _ => 0 end = 0 ->
      undecodable pass name e = name_bad name -> rb_step pass b e = rb_place b ->
      exists left, ends (rb_run pass b (e :: l)) = (left, None) /\ Z.of_nat (length left) = losses (rb_held b) + never_given_back pass name (e :: l)).
    { intros o' Br Op Cl T W' NN NF U ST. pose proof (place_good _ _ _ _ _ G T (PL o' Br T)) as P.
      cbn [rb_run never_given_back]. rewrite U, ST, Br, NN, NF. destruct (name_bad name) eqn:NB.
      - rewrite P. apply (BRK o' W').
      - destruct P as (b' & -> & G' & L' & P'). destruct (take_same _ _ T (g_tail _ _ _ _ G)) as (K & LL & F).
        destruct (IH call o' None b' G' W') as (left & R & LE).
        + destruct M as [M|M]; [auto|]. right. rewrite LL. cbn [top_values] in M. rewrite Br, Op, Cl in M. rewrite (proj1 P').
          destruct open as [|x r]; cbn [length Nat.eqb andb] in M |- *; [lia|].
          rewrite (g_first _ _ _ _ G) in M; [lia|]. intro X. pose proof (g_kinds _ _ _ _ G) as GK. rewrite X in GK. discriminate.
        + exists left. split; [exact R|]. rewrite LE, L'. unfold name_cost. lia. }
    assert (OPN: forall n k o', brings e = true -> opens e = true -> take_item open = Some o' -> nest_run (NBody ((n, k, false) :: o')) l <> None ->
      match e with EMember k => Some k | _ => @None bytes end = None -> match e with EFault _ _ => 1 | _ => 0 end = 0 ->
      undecodable pass name e = name_bad name -> rb_step pass b e = rb_open (match k with KStruct => true | KArray => false end) b ->
      exists left, ends (rb_run pass b (e :: l)) = (left, None) /\ Z.of_nat (length left) = losses (rb_held b) + never_given_back pass name (e :: l)).
    { intros n k o' Br Op T W' NN NF U ST. pose proof (place_good _ _ _ _ _ G T (PL o' Br T)) as P.
      cbn [rb_run never_given_back]. rewrite U, ST, Br, NN, NF. unfold rb_open. rewrite GE. destruct (name_bad name) eqn:NB.
      - rewrite P. apply (run_broken pass l _ (rb_push (rb_next (rb_fail b) - 1) (match k with KStruct => true | KArray => false end) (rb_fail b))) in W'; [|split; reflexivity].
        destruct W' as (b' & -> & (Eb & Rb) & Lb). cbn [ends]. rewrite Rb. cbn [give_back]. eexists. split; [reflexivity|].
        rewrite Lb. cbn [rb_push rb_held]. rewrite (proj2 (fail_broken _ _ _ _ G)). reflexivity.
      - destruct P as (b' & -> & G' & L' & P'). destruct (take_same _ _ T (g_tail _ _ _ _ G)) as (K & LL & F).
        destruct (IH call _ None _ (good_push _ _ _ n k G' F P') W') as (left & R & LE).
        + destruct M as [M|M]; [auto|]. right. cbn [length rb_push rb_first]. rewrite LL. cbn [top_values] in M. rewrite Br, Op in M. rewrite (proj1 P').
          destruct open as [|x r]; cbn [length Nat.eqb andb] in M |- *; [lia|].
          rewrite (g_first _ _ _ _ G) in M; [lia|]. intro X. pose proof (g_kinds _ _ _ _ G) as GK. rewrite X in GK. discriminate.
        + exists left. split; [exact R|]. rewrite LE. cbn [rb_push rb_held]. rewrite L'. unfold name_cost. lia. }
    assert (CLS: forall k r m, brings e = false -> opens e = false -> closes e = true -> open = (0, k, m) :: r -> nest_run (NBody r) l <> None ->
      match e with EMember k => Some k | _ => @None bytes end = None -> match e with EFault _ _ => 1 | _ => 0 end = 0 ->
      undecodable pass name e = false -> rb_step pass b e = rb_close b ->
      exists left, ends (rb_run pass b (e :: l)) = (left, None) /\ Z.of_nat (length left) = losses (rb_held b) + never_given_back pass name (e :: l)).
    { intros k r m Br Op Cl EO W' NN NF U ST. cbn [rb_run never_given_back]. rewrite U, ST, Br, NN, NF. unfold rb_close. rewrite GE. subst open.
      destruct G as [Ge Gr Gi Gk Ga Gf Gt Gn]. cbn [map app] in Gk. destruct (rb_stack b) as [|(c & d) s] eqn:E; [discriminate|]. cbn in Gk. inversion Gk as [[Ed Es]]. cbn [tl] in Gt.
      destruct (IH call r None (mkRB (rb_held b) (rb_next b) (rb_ret b) (rb_first b) false (rb_member b) s)) as (left & R & LE).
      - constructor; cbn [rb_error rb_ret rb_held rb_next rb_stack rb_first rb_member]; auto.
        + intros x X. apply Ga. right. exact X.
        + intros _. apply Gf. discriminate.
        + destruct Gt; [constructor|assumption].
        + apply name_none. exact Gt.
      - exact W'.
      - destruct M as [M|M]; [auto|]. right. cbn [rb_first]. cbn [top_values length] in M. rewrite Br, Op, Cl in M. cbn in M. exact M.
      - exists left. split; [exact R|]. rewrite LE. cbn [rb_held]. lia. }
    assert (NBr: brings e = false -> name_bad name = false \/ brings e = false) by auto.
    cbn [nest_run] in W.
    destruct e as [z|z| |z|s|s|d|n|k| |n| |k| |c m]; cbn [nest_step] in W; try congruence.
    1,2,3,4,6,7: destruct (take_item open) as [o'|] eqn:T; [|exfalso; apply W; reflexivity]; cbn [option_map] in W; apply (VAL o' eq_refl eq_refl eq_refl eq_refl W eq_refl eq_refl eq_refl); cbn [rb_step]; unfold rb_value; rewrite ?GE; reflexivity.
    + destruct (take_item open) as [o'|] eqn:T; [|exfalso; apply W; reflexivity]; cbn [option_map] in W.
      destruct (py_decode pass s) as [t|] eqn:D.
      * apply (VAL o' eq_refl eq_refl eq_refl eq_refl W eq_refl eq_refl); [unfold undecodable|cbn [rb_step]; rewrite GE]; rewrite D; reflexivity.
      * cbn [rb_run rb_step]. rewrite GE, D. cbn [never_given_back]. unfold undecodable. rewrite ?D. cbn [orb]. apply (BRK o' W).
    + destruct (take_item open) as [o'|] eqn:T; [|exfalso; apply W; reflexivity]; cbn [option_map] in W.
      exact (OPN n KStruct o' eq_refl eq_refl eq_refl W eq_refl eq_refl eq_refl eq_refl).
    + destruct open as [|((n & [|]) & [|]) r]; cbn [name_item] in W; try congruence.
      destruct ((0 <? n) && (0 <? blen k)); [|congruence].
      destruct (IH call ((n, KStruct, true) :: r) (Some k) (mkRB (rb_held b) (rb_next b) (rb_ret b) (rb_first b) false k (rb_stack b))) as (left & R & LE).
      * destruct G as [Ge Gr Gi Gk Ga Gf Gt Gn]. constructor; auto.
      * exact W.
      * destruct M as [M|M]; [auto|]. right. exact M.
      * exists left. cbn [rb_run rb_step]. rewrite GE. split; [exact R|]. rewrite LE. cbn [rb_held never_given_back undecodable brings orb andb]. lia.
    + destruct open as [|((n & [|]) & [|]) r]; cbn [close_item] in W; try congruence.
      destruct (n =? 0) eqn:EN; [|congruence]. apply Z.eqb_eq in EN. subst n.
      exact (CLS _ _ _ eq_refl eq_refl eq_refl eq_refl W eq_refl eq_refl eq_refl eq_refl).
    + destruct (take_item open) as [o'|] eqn:T; [|exfalso; apply W; reflexivity]; cbn [option_map] in W.
      exact (OPN n KArray o' eq_refl eq_refl eq_refl W eq_refl eq_refl eq_refl eq_refl).
    + destruct open as [|((n & [|]) & m) r]; cbn [close_item] in W; try congruence.
      destruct (n =? 0) eqn:EN; [|congruence]. apply Z.eqb_eq in EN. subst n.
      exact (CLS _ _ _ eq_refl eq_refl eq_refl eq_refl W eq_refl eq_refl eq_refl eq_refl).
Qed.

Lemma left_exact : forall pass l, well_nested l -> one_result l -> (forall c m, In (EFault c m) l -> py_decode false m <> None) ->
  exists left, rb_left pass l = (left, None) /\ Z.of_nat (length left) = never_given_back pass None l.
Proof.
  intros pass l W O F. destruct l as [|e l]; [exists []; split; reflexivity|].
  unfold well_nested in W. cbn [nest_run] in W. destruct e; cbn [nest_step] in W; try congruence.
  - apply (good_run pass l true [] None (rb_push 1 false (mkRB [(1, H_builder)] 2 (Some 1) false false [] []))); [|exact W|auto].
    constructor; cbn; auto.
    + exists 1. split; [reflexivity|]. split; [|lia]. apply (hangs_root 1 []); [constructor|intros []].
    + intros x [<-|[]]. lia.
    + intros x [<-|[]]. exists H_builder. split; [auto|discriminate].
  - apply (good_run pass l false [] None rb_init); [|exact W|].
    + constructor; cbn; auto; try (intros c []; fail); try congruence.
      * exists 0. split; [reflexivity|]. split; [|lia]. apply (hangs_root 0 []); [constructor|intros []].
      * intros x [<-|[]]. lia.
    + right. cbn [rb_init rb_first length]. cbn [one_result] in O. lia.
  - destruct l as [|e l]; [|cbn in W; destruct e; congruence].
    specialize (F code msg (or_introl eq_refl)). unfold rb_left. cbn [rb_run rb_step rb_init rb_error].
    destruct (py_decode false msg); [|congruence]. eexists. split; [reflexivity|]. reflexivity.
Qed.

Lemma nothing_counted : forall pass l name, (forall c m, ~ In (EFault c m) l) -> (forall s, In (EString s) l -> py_decode pass s <> None) ->
  (forall k c, In (EMember k) l -> In c k -> b2z c < 128) -> (forall k c, name = Some k -> In c k -> b2z c < 128) -> never_given_back pass name l = 0.
Proof.
  intros pass. assert (AS: forall k, (forall c, In c k -> b2z c < 128) -> non_ascii k = false).
  { intros k A. unfold non_ascii. destruct (existsb _ k) eqn:E; [|reflexivity]. apply existsb_exists in E. destruct E as (c & I & X). apply Z.leb_le in X. apply A in I. lia. }
  induction l as [|e l IH]; intros name F S N H; [reflexivity|].
  cbn [never_given_back].
  assert (U: undecodable pass name e = false).
  { unfold undecodable. apply orb_false_iff. split.
    - destruct e; try reflexivity. specialize (S s (or_introl eq_refl)). destruct (py_decode pass s); [reflexivity|congruence].
    - destruct name as [k|]; [|apply andb_false_r]. unfold key_of. fold (non_ascii k). rewrite (AS k); [apply andb_false_r|]. intros c I. apply (H k c eq_refl I). }
  rewrite U. rewrite IH.
  - assert (Z1: match e with EFault _ _ => 1 | _ => 0 end = 0) by (destruct e; try reflexivity; exfalso; apply (F code msg); left; reflexivity).
    rewrite Z1. destruct name as [k|]; [rewrite (AS k) by (intros c I; apply (H k c eq_refl I))|]; destruct (brings e); reflexivity.
  - intros c m I. apply (F c m). right. exact I.
  - intros s I. apply S. right. exact I.
  - intros k c I. apply N. right. exact I.
  - intros k c E. destruct e; try discriminate. inversion E; subst. apply N. left. reflexivity.
Qed.

Lemma names_nested_gen : forall names r, (forall k, In k names -> k <> []) ->
  nest_run (NBody ((Z.of_nat (length names), KStruct, false) :: r)) (flat_map (fun k => [EMember k; ENull]) names ++ [ECloseStruct]) = Some (NBody r).
Proof.
  induction names as [|k names IH]; intros r H; [reflexivity|].
  assert (A: 0 <? Z.of_nat (length (k :: names)) = true) by (apply Z.ltb_lt; cbn [length]; lia).
  assert (B: 0 <? blen k = true) by (apply Z.ltb_lt; unfold blen; specialize (H k (or_introl eq_refl)); destruct k; [congruence|cbn [length]; lia]).
  assert (C: Z.of_nat (length (k :: names)) - 1 = Z.of_nat (length names)) by (cbn [length]; lia).
  remember (Z.of_nat (length (k :: names))) as N eqn:EN. clear EN.
  change (flat_map (fun k => [EMember k; ENull]) (k :: names) ++ [ECloseStruct]) with (EMember k :: ENull :: flat_map (fun k => [EMember k; ENull]) names ++ [ECloseStruct]).
  cbn [nest_run nest_step name_item]. rewrite A, B. cbn [andb nest_run nest_step take_item]. rewrite A. cbn [option_map]. rewrite C. apply IH. intros x I. apply H. right. exact I.
Qed.
Lemma names_nested : forall names, (forall k, In k names -> k <> []) ->
  well_nested ([EMethodResponse; EOpenStruct (Z.of_nat (length names))] ++ flat_map (fun k => [EMember k; ENull]) names ++ [ECloseStruct]).
Proof. intros names H. unfold well_nested. cbn [app nest_run nest_step take_item option_map]. rewrite names_nested_gen by exact H. discriminate. Qed.
Lemma names_top : forall names d, top_values (S d) (flat_map (fun k => [EMember k; ENull]) names ++ [ECloseStruct]) = 0%nat.
Proof. induction names as [|k names IH]; intro d; [reflexivity|]. cbn [flat_map app top_values brings opens closes andb]. cbn. apply (IH d). Qed.
Lemma names_one : forall names, one_result ([EMethodResponse; EOpenStruct (Z.of_nat (length names))] ++ flat_map (fun k => [EMember k; ENull]) names ++ [ECloseStruct]).
Proof. intro names. cbn [app one_result top_values brings opens closes]. rewrite names_top. cbn. lia. Qed.
Lemma names_no_fault : forall names c m, ~ In (EFault c m) ([EMethodResponse; EOpenStruct (Z.of_nat (length names))] ++ flat_map (fun k => [EMember k; ENull]) names ++ [ECloseStruct]).
Proof.
  intros names c m H. cbn in H. destruct H as [H|[H|H]]; try discriminate. apply in_app_or in H. destruct H as [H|[H|[]]]; [|discriminate].
  apply in_flat_map in H. destruct H as (k & _ & [H|[H|[]]]); discriminate.
Qed.
Lemma names_counted_gen : forall pass names, (forall k, In k names -> non_ascii k = true /\ key_of k <> None) ->
  never_given_back pass None (flat_map (fun k => [EMember k; ENull]) names ++ [ECloseStruct]) = Z.of_nat (length names).
Proof.
  intros pass. induction names as [|k names IH]; intros H; [reflexivity|].
  destruct (H k (or_introl eq_refl)) as (A & K). cbn [flat_map app never_given_back]. unfold undecodable at 1. cbn [brings orb andb]. 
  unfold undecodable at 1. cbn [brings orb andb]. destruct (key_of k); [|congruence]. rewrite A. rewrite IH by (intros x I; apply H; right; exact I). cbn [length]. lia.
Qed.
Lemma names_counted : forall pass names n, (forall k, In k names -> non_ascii k = true /\ key_of k <> None) ->
  never_given_back pass None (EMethodResponse :: EOpenStruct n :: flat_map (fun k => [EMember k; ENull]) names ++ [ECloseStruct]) = Z.of_nat (length names).
Proof. intros. cbn [never_given_back undecodable brings orb andb]. rewrite names_counted_gen by assumption. lia. Qed.

Lemma nulls_nested_gen : forall n, nest_run (NBody [(Z.of_nat n, KArray, false)]) (repeat ENull n ++ [ECloseArray]) = Some (NBody []).
Proof.
  induction n as [|m IH]; [reflexivity|].
  assert (A: 0 <? Z.of_nat (S m) = true) by (apply Z.ltb_lt; lia). assert (C: Z.of_nat (S m) - 1 = Z.of_nat m) by lia.
  remember (Z.of_nat (S m)) as N eqn:EN. clear EN.
  change (repeat ENull (S m) ++ [ECloseArray]) with (ENull :: repeat ENull m ++ [ECloseArray]). cbn [nest_run nest_step take_item]. rewrite A. cbn [option_map]. rewrite C. exact IH.
Qed.
Lemma nulls_nested : forall n, well_nested ([EMethodResponse; EOpenArray (Z.of_nat (S n)); EString [xff]] ++ repeat ENull n ++ [ECloseArray]).
Proof.
  intro n. unfold well_nested. assert (A: 0 <? Z.of_nat (S n) = true) by (apply Z.ltb_lt; lia). assert (C: Z.of_nat (S n) - 1 = Z.of_nat n) by lia.
  remember (Z.of_nat (S n)) as N eqn:EN. clear EN.
  cbn [app nest_run nest_step take_item option_map]. rewrite A. cbn [option_map]. rewrite C, nulls_nested_gen. discriminate.
Qed.
Lemma nulls_one : forall n, one_result ([EMethodResponse; EOpenArray (Z.of_nat (S n)); EString [xff]] ++ repeat ENull n ++ [ECloseArray]).
Proof. intro n. cbn [app one_result top_values brings opens closes]. cbn. assert (X: forall n, top_values 1 (repeat ENull n ++ [ECloseArray]) = 0%nat) by (induction n0; [reflexivity|cbn; exact IHn0]). rewrite X. lia. Qed.
Lemma nulls_no_fault : forall n c m, ~ In (EFault c m) ([EMethodResponse; EOpenArray (Z.of_nat (S n)); EString [xff]] ++ repeat ENull n ++ [ECloseArray]).
Proof. intros n c m H. cbn [app In] in H. repeat (destruct H as [H|H]; [discriminate|]). apply in_app_or in H. destruct H as [H|[H|[]]]; [apply repeat_spec in H|]; discriminate. Qed.
Lemma nulls_counted : forall pass n, never_given_back pass None ([EMethodResponse; EOpenArray (Z.of_nat (S n)); EString [xff]] ++ repeat ENull n ++ [ECloseArray]) = Z.of_nat n.
Proof.
  intros pass n. assert (U: undecodable pass None (EString [xff]) = true) by (destruct pass; reflexivity).
  cbn [app never_given_back]. rewrite U. change (undecodable pass None EMethodResponse) with false. change (undecodable pass None (EOpenArray (Z.of_nat (S n)))) with false. cbn [brings].
  assert (X: forall n, nulls (repeat ENull n ++ [ECloseArray]) = Z.of_nat n) by (induction n0 as [|m IH]; [reflexivity|]; unfold nulls in *; cbn [repeat app filter is_null length]; lia).
  rewrite X. lia.
Qed.

(** With the reader. *)
Lemma rb_run_app : forall pass l m b, rb_run pass b (l ++ m) = match rb_run pass b l with (b', None) => rb_run pass b' m | x => x end.
Proof. intros pass. induction l as [|e l IH]; intros m b; [reflexivity|]. cbn [app rb_run]. destruct (rb_step pass b e) as (b' & [f|]); [reflexivity|apply IH]. Qed.
Lemma read_exact : forall pass req pieces u b l f,
  unmarshall_all _ (traced (rb_step pass)) req unm_init (rb_init, []) pieces = (u, (b, l), f) ->
  one_result l -> (forall c m, In (EFault c m) l -> py_decode false m <> None) ->
  match f with None => True | Some f => exists m, f = Exn (StreamError m) end /\
  Z.of_nat (length (give_back (rb_ret b) (rb_held b))) = never_given_back pass None l.
Proof.
  intros pass req pieces u b l f H O F.
  assert (W: well_nested l) by exact (proj1 (unmarshall_all_nest _ _ _ pieces unm_init (rb_init, []) u (b, l) f (nready_init _ _) H)).
  destruct (left_exact pass l W O F) as (left & R & L).
  pose (P := fun x : rbuilder * list event => rb_run pass rb_init (snd x) = (fst x, None)).
  assert (HP: forall x e y, P x -> traced (rb_step pass) x e = (y, None) -> P y).
  { intros (b0 & l0) e (b1 & l1) A B. unfold P, traced in *. cbn [fst snd] in *. destruct (rb_step pass b0 e) as (b2 & g) eqn:E. inversion B; subst. rewrite rb_run_app, A. cbn [rb_run]. rewrite E. reflexivity. }
  pose proof (unmarshall_all_origin _ _ req P HP pieces unm_init (rb_init, []) u (b, l) f ready_init eq_refl H) as Q.
  assert (K: P (b, l) -> Z.of_nat (length (give_back (rb_ret b) (rb_held b))) = never_given_back pass None l).
  { intro A. unfold P in A. cbn [fst snd] in A. unfold rb_left in R. rewrite A in R. inversion R; subst. exact L. }
  destruct f as [f|]; [|auto]. destruct Q as [(M & A)|((b0 & l0) & e & A & S)]; [auto|]. exfalso.
  unfold P, traced in *. cbn [fst snd] in *. destruct (rb_step pass b0 e) as (b2 & g) eqn:E. inversion S; subst.
  unfold rb_left in R. rewrite rb_run_app, A in R. cbn [rb_run] in R. rewrite E in R. discriminate.
Qed.

Lemma extra_nested : forall n, nest_run (NBody []) (repeat ENull n) = Some (NBody []).
Proof. induction n; [reflexivity|]. cbn. exact IHn. Qed.
Lemma extra_run : forall pass n b, rb_error b = false -> rb_first b = false -> rb_stack b = [] ->
  exists b' ids, rb_run pass b (repeat ENull n) = (b', None) /\ rb_ret b' = rb_ret b /\ rb_held b' = rb_held b ++ map (fun i => (i, H_nobody)) ids /\
    length ids = n /\ forall i, In i ids -> rb_next b <= i.
Proof.
  intros pass. induction n as [|n IH]; intros b E F S.
  - exists b, []. cbn. rewrite app_nil_r. repeat split; auto. intros i [].
  - destruct (IH (rb_take H_nobody b) E F S) as (b' & ids & R & Q & H & L & N). exists b', (rb_next b :: ids).
    cbn [repeat rb_run rb_step]. unfold rb_place, rb_is_first. rewrite E, S, F. split; [exact R|]. split; [exact Q|]. split.
    + rewrite H. cbn [rb_take rb_held map]. rewrite <- app_assoc. reflexivity.
    + split; [cbn; congruence|]. intros i [<-|I]; [lia|]. apply N in I. cbn in I. lia.
Qed.
Lemma extra_left : forall pass n, exists left, rb_left pass (EMethodResponse :: repeat ENull (S n)) = (left, None) /\ length left = n.
Proof.
  intros pass n. unfold rb_left. cbn [repeat rb_run rb_step].
  change (rb_place rb_init) with (mkRB [(1, H_builder)] 2 (Some 1) false false [] [], @None fail). cbv iota.
  destruct (extra_run pass n (mkRB [(1, H_builder)] 2 (Some 1) false false [] []) eq_refl eq_refl eq_refl) as (b' & ids & R & Q & H & L & N).
  rewrite R, Q, H. eexists. split; [reflexivity|]. cbn [rb_ret rb_held give_back app].
  change (length (release [1; 1] (map (fun i => (i, H_nobody)) ids)) = n).
  assert (X: forall ids, (forall i, In i ids -> 2 <= i) -> release [1; 1] (map (fun i => (i, H_nobody)) ids) = map (fun i => (i, H_nobody)) ids).
  { clear. induction ids as [|i ids IH]; intro N; [reflexivity|]. cbn [map release among existsb].
    assert (X: i =? 1 = false) by (apply Z.eqb_neq; specialize (N i (or_introl eq_refl)); lia). rewrite X. cbn [orb]. f_equal. apply IH. intros j J. apply N. right. exact J. }
  rewrite X by exact N. rewrite map_length. exact L.
Qed.
