(** Proofs about the console. *)
From Coq Require Import Lia ZifyBool Permutation Sorted.
From Verif Require Import Base Value Text M_Base64 M_Iso M_Marshal M_BinUnmarshal M_TreeBuilder M_Dump M_Python M_PyDate M_Netcat S_Netcat L_Base L_Text L_Json L_Secrets L_Python.

Lemma map_b2z_inj : forall a b, map b2z a = map b2z b -> a = b.
Proof.
  induction a as [|x a IH]; destruct b as [|y b]; intro E; try discriminate E; [reflexivity|]. cbn [map] in E.
  injection E as E1 E2. rewrite (IH _ E2). f_equal. apply (f_equal z2b) in E1. rewrite !z2b_b2z in E1. exact E1.
Qed.
Lemma udec_inj : forall a b, udec a = udec b -> a = b.
Proof. intros a b E. apply map_b2z_inj in E. rewrite <- (proj2 (integer_dec a)), <- (proj2 (integer_dec b)), E. reflexivity. Qed.

Lemma span_unique : forall (P : Z -> Prop) (a b : list Z) c d x y, Forall P a -> Forall P b -> ~ P c -> ~ P d ->
  a ++ c :: x = b ++ d :: y -> a = b /\ c = d /\ x = y.
Proof.
  intros P a. induction a as [|u a IH]; intros b c d x y A B C D E; destruct b as [|v b]; cbn [app] in E; injection E as E1 E2.
  - auto.
  - subst. inversion B; subst. contradiction.
  - subst. inversion A; subst. contradiction.
  - inversion A; inversion B; subst. destruct (IH b c d x y) as (-> & -> & ->); auto.
Qed.
Lemma cut_at : forall c (a b x y : list Z), ~ In c a -> ~ In c b -> a ++ c :: x = b ++ c :: y -> a = b /\ x = y.
Proof.
  intros c a b x y A B E. destruct (span_unique (fun u => u <> c) a b c c x y) as (F & _ & G); auto.
  - apply Forall_forall. intros u I ->. contradiction.
  - apply Forall_forall. intros u I ->. contradiction.
Qed.

Definition numeral (c : Z) : Prop := c = 45 \/ 48 <= c <= 57.
Lemma dec_numeral : forall n, 0 <= n -> Forall numeral (map b2z (dec n)).
Proof.
  intros n H. apply Forall_forall. intros c I. apply in_map_iff in I. destruct I as (x & <- & I). apply dec_digits in I; [|exact H].
  right. unfold is_digit in I. lia.
Qed.
Lemma udec_numeral : forall z, Forall numeral (udec z).
Proof. intro z. unfold udec, dec_signed. destruct (z <? 0) eqn:N; [|apply dec_numeral; lia]. constructor; [left; reflexivity|apply dec_numeral; lia]. Qed.
Lemma udec_cut : forall a b c d x y, ~ numeral c -> ~ numeral d -> udec a ++ c :: x = udec b ++ d :: y -> a = b /\ c = d /\ x = y.
Proof.
  intros a b c d x y C D E. destruct (span_unique numeral _ _ c d x y (udec_numeral a) (udec_numeral b) C D E) as (F & G & H).
  apply udec_inj in F. auto.
Qed.

Local Arguments ustr : simpl never.

Lemma py_induct : forall P : py -> Prop,
  (forall v, match v with PyList _ | PyDict _ => False | _ => True end -> P v) -> (forall l, Forall P l -> P (PyList l)) ->
  (forall m, Forall (fun kv => P (snd kv)) m -> P (PyDict m)) -> forall v, P v.
Proof.
  intros P A L D. fix REC 1. intros [|b|b|z|d|s|s|d|d|l|l|m|c mm|]; try (apply A; exact I).
  - apply L. induction l as [|x l IH]; constructor; [exact (REC x)|exact IH].
  - apply D. induction m as [|[k x] m IH]; constructor; [exact (REC x)|exact IH].
Qed.

(** ** The parts of [write] *)
Section Out.
  Variable autosort : bool.
  Variable float_text : Z -> pystr.
  Variable bytes_text : bytes -> pystr.
  Variable std_text : datetime -> pystr.
  Variable other_text : py -> pystr.
  Let write := M_Netcat.write autosort float_text bytes_text std_text other_text.
  Let key_text := M_Netcat.key_text float_text bytes_text other_text.

  Definition element (i : Z) (x : py) (deeper t : pystr) : pystr := deeper ++ ustr "[" ++ udec i ++ ustr "] " ++ tagged x ++ ustr "= " ++ t ++ [10].
  Definition elements (deeper : pystr) := fix elements (i : Z) (l : list py) : option pystr :=
    match l with
    | [] => Some []
    | x :: r => match write x deeper with
                | Some t => match elements (i + 1) r with
                            | Some u => Some (deeper ++ ustr "[" ++ udec i ++ ustr "] " ++ tagged x ++ ustr "= " ++ t ++ 10 :: u)
                            | None => None
                            end
                | None => None
                end
    end.
  Definition member (deeper : pystr) (k x : py) (t : pystr) : pystr := deeper ++ tagged x ++ key_text k ++ ustr " = " ++ t ++ [10].
  Definition mems (deeper : pystr) := fix mems (m : list (py * py)) : option (list (py * pystr)) :=
    match m with
    | [] => Some []
    | (k, x) :: r => match write x deeper with
                     | Some t => match mems r with Some l => Some ((k, member deeper k x t) :: l) | None => None end
                     | None => None
                     end
    end.
  Lemma elements_cons : forall deeper i x l, elements deeper i (x :: l) =
    match write x deeper with
    | Some t => match elements deeper (i + 1) l with
                | Some u => Some (deeper ++ ustr "[" ++ udec i ++ ustr "] " ++ tagged x ++ ustr "= " ++ t ++ 10 :: u)
                | None => None
                end
    | None => None
    end.
  Proof. reflexivity. Qed.
  Lemma mems_cons : forall deeper k x m, mems deeper ((k, x) :: m) =
    match write x deeper with
    | Some t => match mems deeper m with Some l => Some ((k, member deeper k x t) :: l) | None => None end
    | None => None
    end.
  Proof. reflexivity. Qed.
  Lemma write_list : forall l ind, write (PyList l) ind =
    match elements (ind ++ ustr "    ") 0 l with Some t => Some (40 :: 10 :: t ++ ind ++ [41]) | None => None end.
  Proof. reflexivity. Qed.
  Lemma write_dict : forall m ind, write (PyDict m) ind =
    match mems (ind ++ ustr "    ") m with
    | Some l => match (if autosort then sort_keys l else Some l) with
                | Some l => Some (123 :: 10 :: concat (map snd l) ++ ind ++ [125])
                | None => None
                end
    | None => None
    end.
  Proof. reflexivity. Qed.

  (** ** Sorting *)
  Lemma insert_perm : forall A (x : py * A) l l', insert_key x l = Some l' -> Permutation (x :: l) l'.
  Proof.
    induction l as [|y r IH]; intros l' E; cbn [insert_key] in E; [injection E as <-; apply Permutation_refl|].
    destruct (key_less (fst x) (fst y)) as [[|]|]; [injection E as <-; apply Permutation_refl| |discriminate E].
    destruct (insert_key x r) as [q|]; [|discriminate E]. cbn [option_map] in E. injection E as <-.
    etransitivity; [apply perm_swap|]. constructor. apply IH. reflexivity.
  Qed.
  Lemma sort_perm : forall A (l l' : list (py * A)), sort_keys l = Some l' -> Permutation l l'.
  Proof.
    induction l as [|x r IH]; intros l' E; cbn [sort_keys] in E; [injection E as <-; constructor|].
    destruct (sort_keys r) as [q|]; [|discriminate E]. apply insert_perm in E. etransitivity; [|exact E]. constructor. apply IH. reflexivity.
  Qed.

  (** Members in another order are written as the same lines in that order. *)
  Lemma mems_perm : forall deeper l l', Permutation l l' -> forall m, mems deeper m = Some l -> exists m', Permutation m m' /\ mems deeper m' = Some l'.
  Proof.
    intros deeper l l' P. induction P as [|x l l' P IH|x y l|l l' l'' P1 IH1 P2 IH2]; intros m E.
    - exists m. split; [apply Permutation_refl|exact E].
    - destruct m as [|[k v] m]; [discriminate E|]. cbn [mems] in E. destruct (write v deeper) as [t|] eqn:W; [|discriminate E].
      destruct (mems deeper m) as [q|] eqn:M; [|discriminate E]. injection E as <- <-. destruct (IH m M) as (m' & Q & F).
      exists ((k, v) :: m'). split; [constructor; exact Q|]. cbn [mems]. rewrite W, F. reflexivity.
    - destruct m as [|[k v] m]; [discriminate E|]. cbn [mems] in E. destruct (write v deeper) as [t|] eqn:W; [|discriminate E].
      destruct m as [|[k2 v2] m]; [discriminate E|]. cbn [mems] in E. destruct (write v2 deeper) as [t2|] eqn:W2; [|discriminate E].
      destruct (mems deeper m) as [q|] eqn:M; [|discriminate E]. injection E as <- <- <-.
      exists ((k2, v2) :: (k, v) :: m). split; [apply perm_swap|]. cbn [mems]. rewrite W2, W, M. reflexivity.
    - destruct (IH1 m E) as (m1 & Q1 & F1). destruct (IH2 m1 F1) as (m2 & Q2 & F2). exists m2. split; [etransitivity; eauto|exact F2].
  Qed.

  (** ** Reading what is written *)
  Lemma tag_form : forall v, readable v -> v = PyNone \/ (tagged v = type_of v ++ [32] /\ ~ In 32 (type_of v) /\ type_of v <> [61]).
  Proof.
    intros v R. destruct R; [left; reflexivity|..]; right; (split; [reflexivity|]); split; vm_compute; try discriminate; intuition discriminate.
  Qed.
  Lemma none_type : forall v, readable v -> type_of v = [] -> v = PyNone.
  Proof. intros v R E. destruct R; try reflexivity; vm_compute in E; discriminate E. Qed.

  Lemma tag_unique : forall a b x y, readable a -> readable b -> tagged a ++ ustr "= " ++ x = tagged b ++ ustr "= " ++ y -> type_of a = type_of b /\ x = y.
  Proof.
    intros a b x y A B E. change (ustr "= ") with [61; 32] in E.
    destruct (tag_form a A) as [->|(TA & NA & QA)]; destruct (tag_form b B) as [->|(TB & NB & QB)]; try rewrite TA in E; try rewrite TB in E.
    - cbn [tagged app] in E. injection E as ->. auto.
    - exfalso. cbn [tagged app] in E. rewrite <- app_assoc in E. cbn [app] in E.
      destruct (cut_at 32 [61] (type_of b) x (61 :: 32 :: y)) as [F _]; [intros [I|[]]; discriminate I|exact NB|exact E|congruence].
    - exfalso. cbn [tagged app] in E. rewrite <- app_assoc in E. cbn [app] in E.
      destruct (cut_at 32 (type_of a) [61] (61 :: 32 :: x) y) as [F _]; [exact NA|intros [I|[]]; discriminate I|exact E|congruence].
    - rewrite <- !app_assoc in E. cbn [app] in E. destruct (cut_at 32 _ _ _ _ NA NB E) as [F G]. injection G as ->. auto.
  Qed.
  Lemma name_unique : forall a b k k' x y, readable a -> readable b -> usual_name k -> usual_name k' ->
    tagged a ++ k ++ ustr " = " ++ x = tagged b ++ k' ++ ustr " = " ++ y -> type_of a = type_of b /\ k = k' /\ x = y.
  Proof.
    intros a b k k' x y A B (K & KN) (K' & KN') E. change (ustr " = ") with [32; 61; 32] in E.
    assert (S: ~ In 32 k) by (intro I; rewrite Forall_forall in K; destruct (K _ I); congruence).
    assert (S': ~ In 32 k') by (intro I; rewrite Forall_forall in K'; destruct (K' _ I); congruence).
    destruct (tag_form a A) as [->|(TA & NA & QA)]; destruct (tag_form b B) as [->|(TB & NB & QB)]; try rewrite TA in E; try rewrite TB in E.
    - cbn [tagged app] in E. destruct (cut_at 32 _ _ _ _ S S' E) as [F G]. injection G as ->. auto.
    - exfalso. cbn [tagged app] in E. rewrite <- app_assoc in E. cbn [app] in E.
      destruct (cut_at 32 _ _ _ _ S NB E) as [F G].
      destruct (cut_at 32 [61] k' x (61 :: 32 :: y)) as [H _]; [intros [I|[]]; discriminate I|exact S'|exact G|congruence].
    - exfalso. cbn [tagged app] in E. rewrite <- app_assoc in E. cbn [app] in E.
      destruct (cut_at 32 _ _ _ _ NA S' E) as [F G].
      destruct (cut_at 32 k [61] (61 :: 32 :: x) y) as [H _]; [exact S|intros [I|[]]; discriminate I|exact G|congruence].
    - rewrite <- !app_assoc in E. cbn [app] in E. destruct (cut_at 32 _ _ _ _ NA NB E) as [F G].
      destruct (cut_at 32 _ _ _ _ S S' G) as [H I]. injection I as ->. auto.
  Qed.

  Definition unique (v : py) : Prop := readable v -> forall w, readable w -> type_of v = type_of w -> forall ind t u r r',
    write v ind = Some t -> write w ind = Some u -> t ++ 10 :: r = u ++ 10 :: r' -> same_result v w /\ r = r'.

  Lemma some_inj : forall A (a b : A), Some a = Some b -> b = a.
  Proof. congruence. Qed.
  Lemma elements_unique : forall l, Forall unique l -> Forall readable l -> forall l', Forall readable l' -> forall ind i t u r r',
    elements (ind ++ ustr "    ") i l = Some t -> elements (ind ++ ustr "    ") i l' = Some u -> t ++ ind ++ 41 :: r = u ++ ind ++ 41 :: r' ->
    Forall2 same_result l l' /\ r = r'.
  Proof.
    intros l U. induction U as [|v l UV UL IH]; intros R l' R' ind i t u r r' T W E; destruct l' as [|w l']; rewrite ?elements_cons in T; rewrite ?elements_cons in W.
    - apply some_inj in T; subst t. apply some_inj in W; subst u. cbn [app] in E. apply app_inv_head in E. injection E as ->. auto.
    - exfalso. apply some_inj in T; subst t. destruct (write w _) as [tw|]; [|discriminate W]. destruct (elements _ (i + 1) l') as [tl|]; [|discriminate W]. apply some_inj in W; subst u.
      rewrite <- !app_assoc in E. cbn [app] in E. apply app_inv_head in E. discriminate E.
    - exfalso. apply some_inj in W; subst u. destruct (write v _) as [tw|]; [|discriminate T]. destruct (elements _ (i + 1) l) as [tl|]; [|discriminate T]. apply some_inj in T; subst t.
      rewrite <- !app_assoc in E. cbn [app] in E. apply app_inv_head in E. discriminate E.
    - inversion R as [|? ? RV RL]; subst. inversion R' as [|? ? RW RL']; subst.
      destruct (write v _) as [tv|] eqn:TV; [|discriminate T]. destruct (elements _ (i + 1) l) as [tl|] eqn:TL; [|discriminate T]. apply some_inj in T; subst t.
      destruct (write w _) as [tw|] eqn:TW; [|discriminate W]. destruct (elements _ (i + 1) l') as [tl'|] eqn:TL'; [|discriminate W]. apply some_inj in W; subst u.
      rewrite <- !app_assoc in E. do 5 apply app_inv_head in E. destruct (tag_unique _ _ _ _ RV RW E) as [TY E2].
      cbn [app] in E2.
      destruct (UV RV w RW TY _ _ _ _ _ TV TW E2) as [SV E3].
      destruct (IH RL l' RL' ind (i + 1) _ _ _ _ TL TL' E3) as [SL E4]. split; [constructor; assumption|exact E4].
  Qed.

  Lemma mems_unique : forall m, Forall (fun kv => unique (snd kv)) m -> forall m', 
    Forall (fun kv => (exists k, fst kv = PyStr k /\ usual_name k) /\ readable (snd kv)) m ->
    Forall (fun kv => (exists k, fst kv = PyStr k /\ usual_name k) /\ readable (snd kv)) m' -> forall ind l l' r r',
    mems (ind ++ ustr "    ") m = Some l -> mems (ind ++ ustr "    ") m' = Some l' ->
    concat (map snd l) ++ ind ++ 125 :: r = concat (map snd l') ++ ind ++ 125 :: r' ->
    Forall2 (fun a b => fst a = fst b /\ same_result (snd a) (snd b)) m m' /\ r = r'.
  Proof.
    intros m U. induction U as [|[k v] m UV UL IH]; intros m' R R' ind l l' r r' T W E; destruct m' as [|[k' w] m']; rewrite ?mems_cons in T; rewrite ?mems_cons in W.
    - apply some_inj in T; subst l. apply some_inj in W; subst l'. cbn [map concat app] in E. apply app_inv_head in E. injection E as ->. auto.
    - exfalso. apply some_inj in T; subst l. destruct (write w _) as [tw|]; [|discriminate W]. destruct (mems _ m') as [tl|]; [|discriminate W].
      apply some_inj in W; subst l'. cbn [map concat app snd] in E. unfold member in E. rewrite <- !app_assoc in E. apply app_inv_head in E. discriminate E.
    - exfalso. apply some_inj in W; subst l'. destruct (write v _) as [tw|]; [|discriminate T]. destruct (mems _ m) as [tl|]; [|discriminate T].
      apply some_inj in T; subst l. cbn [map concat app snd] in E. unfold member in E. rewrite <- !app_assoc in E. apply app_inv_head in E. discriminate E.
    - inversion R as [|? ? ((kn & KE & KU) & RV) RL]; subst. inversion R' as [|? ? ((kn' & KE' & KU') & RW) RL']; subst. cbn [fst snd] in *. subst k k'.
      destruct (write v _) as [tv|] eqn:TV; [|discriminate T]. destruct (mems _ m) as [tl|] eqn:TL; [|discriminate T]. apply some_inj in T; subst l.
      destruct (write w _) as [tw|] eqn:TW; [|discriminate W]. destruct (mems _ m') as [tl'|] eqn:TL'; [|discriminate W]. apply some_inj in W; subst l'.
      cbn [map concat snd] in E. unfold member in E. rewrite <- !app_assoc in E. do 2 apply app_inv_head in E.
      destruct (name_unique _ _ _ _ _ _ RV RW KU KU' E) as (TY & <- & E2). cbn [app] in E2.
      destruct (UV RV w RW TY _ _ _ _ _ TV TW E2) as [SV E3].
      destruct (IH m' RL RL' ind _ _ _ _ TL TL' E3) as [SL E4]. split; [constructor; auto|exact E4].
  Qed.

  Lemma forall2_perm : forall A B (R : A -> B -> Prop) b b', Permutation b b' -> forall a, Forall2 R a b -> exists a', Permutation a a' /\ Forall2 R a' b'.
  Proof.
    intros A B R b b' P. induction P as [|x l l' P IH|x y l|l l' l'' P1 IH1 P2 IH2]; intros a F.
    - exists a. split; [apply Permutation_refl|exact F].
    - inversion F as [|u ? a0 ? X Y]; subst. destruct (IH a0 Y) as (a' & Q & G). exists (u :: a'). split; [constructor; exact Q|constructor; assumption].
    - inversion F as [|u ? a0 ? X Y]; subst. inversion Y as [|u2 ? a1 ? X2 Y2]; subst. exists (u2 :: u :: a1). split; [apply perm_swap|repeat constructor; assumption].
    - destruct (IH1 a F) as (a1 & Q1 & G1). destruct (IH2 a1 G1) as (a2 & Q2 & G2). exists a2. split; [etransitivity; eauto|exact G2].
  Qed.

  Hypothesis floats : prints_floats float_text.

  Lemma date_unique : forall d e r r', date_out d ++ r = date_out e ++ r' ->
    dt_year d = dt_year e /\ dt_month d = dt_month e /\ dt_day d = dt_day e /\ dt_hour d = dt_hour e /\ dt_min d = dt_min e /\ dt_sec d = dt_sec e /\
    dt_tz d = dt_tz e /\ r = r'.
  Proof.
    intros [y mo da h mi se wd un tz] [y' mo' da' h' mi' se' wd' un' tz'] r r' E. unfold date_out in E. unfold date_text in E.
    cbn [dt_year dt_month dt_day dt_hour dt_min dt_sec dt_tz] in *.
    change (ustr ".") with [46] in E. change (ustr ":") with [58] in E. change (ustr " ") with [32] in E. change (ustr " (") with [32; 40] in E.
    change (ustr "+") with [43] in E. change (ustr "-") with [45] in E. change (ustr ")") with [41] in E.
    rewrite <- !app_assoc in E. cbn [app] in E.
    assert (N: forall c, c = 46 \/ c = 58 \/ c = 32 -> ~ numeral c) by (intros c H [I|I]; lia).
    apply udec_cut in E; [|apply N; auto..]. destruct E as (-> & _ & E). apply udec_cut in E; [|apply N; auto..]. destruct E as (-> & _ & E).
    apply udec_cut in E; [|apply N; auto..]. destruct E as (-> & _ & E). apply udec_cut in E; [|apply N; auto..]. destruct E as (-> & _ & E).
    apply udec_cut in E; [|apply N; auto..]. destruct E as (-> & _ & E). apply udec_cut in E; [|apply N; auto..]. destruct E as (-> & _ & E).
    assert (TZ: tz = tz' /\ 32 = 32 /\ 40 :: map b2z (iso_text y' mo' da' h' mi' se' tz) ++ 41 :: r = 40 :: map b2z (iso_text y' mo' da' h' mi' se' tz') ++ 41 :: r').
    { destruct (0 <=? tz); destruct (0 <=? tz'); cbn [app] in E; try discriminate E; injection E as E; apply udec_cut in E; try (apply N; auto; fail);
        destruct E as (A & B & C); (split; [lia|split; [exact B|exact C]]). }
    destruct TZ as (-> & _ & E2). apply (f_equal (@tl Z)) in E2. cbn [tl] in E2. apply app_inv_head in E2. injection E2 as ->. repeat split.
  Qed.

  Lemma all_unique : forall v, unique v.
  Proof.
    assert (G: forall v, match v with PyList l => Forall unique l | PyDict m => Forall (fun kv => unique (snd kv)) m | _ => True end -> unique v).
    2: { apply py_induct; [intros v AT; apply G; destruct v; try exact I; destruct AT|intros l F; apply G; exact F|intros m F; apply G; exact F]. }
    intros v A RV w RW TY ind t u r r' T U E.
    destruct v as [|b|b|z|d|s|s|d|d|l|l|m|c mm|]; try (exfalso; inversion RV; fail);
      destruct w as [|b'|b'|z'|d'|s'|s'|d'|d'|l'|l'|m'|c' mm'|]; try (exfalso; inversion RW; fail); try (exfalso; vm_compute in TY; discriminate TY).
    - apply some_inj in T; subst t. apply some_inj in U; subst u. apply app_inv_head in E. injection E as ->. split; [constructor|reflexivity].
    - apply some_inj in T; subst t. apply some_inj in U; subst u. destruct b, b'.
      + apply app_inv_head in E. injection E as ->. split; [constructor|reflexivity].
      + exfalso. discriminate E.
      + exfalso. discriminate E.
      + apply app_inv_head in E. injection E as ->. split; [constructor|reflexivity].
    - exfalso. apply some_inj in T; subst t. apply some_inj in U; subst u. pose proof (udec_numeral z') as N. destruct (udec z') as [|x q].
      + destruct b; discriminate E.
      + inversion N as [|? ? NX _]; subst. destruct b; injection E as <- _; destruct NX as [NX|[NX NX2]]; vm_compute in NX; try discriminate NX; vm_compute in NX2; apply NX2; reflexivity.
    - exfalso. apply some_inj in T; subst t. apply some_inj in U; subst u. pose proof (udec_numeral z) as N. destruct (udec z) as [|x q].
      + destruct b'; discriminate E.
      + inversion N as [|? ? NX _]; subst. destruct b'; injection E as -> _; destruct NX as [NX|[NX NX2]]; vm_compute in NX; try discriminate NX; vm_compute in NX2; apply NX2; reflexivity.
    - apply some_inj in T; subst t. apply some_inj in U; subst u. apply udec_cut in E; [|intros [I|I]; lia..]. destruct E as (-> & _ & ->). split; [constructor|reflexivity].
    - apply some_inj in T; subst t. apply some_inj in U; subst u. destruct floats as [FL FI].
      apply cut_at in E; [|apply FL..]. destruct E as (E & ->). inversion RV; inversion RW; subst. apply FI in E; auto. subst. split; [constructor|reflexivity].
    - apply some_inj in T; subst t. apply some_inj in U; subst u. inversion RV; inversion RW; subst. cbn [app] in E. rewrite <- !app_assoc in E. cbn [app] in E. injection E as E.
      apply cut_at in E; [|assumption..]. destruct E as (-> & E). injection E as ->. split; [constructor|reflexivity].
    - apply some_inj in T; subst t. apply some_inj in U; subst u. apply date_unique in E. destruct E as (E1 & E2 & E3 & E4 & E5 & E6 & E7 & E8).
      injection E8 as ->. split; [constructor; assumption|reflexivity].
    - rewrite write_list in T, U. destruct (elements _ 0 l) as [tl|] eqn:TL; [|discriminate T]. destruct (elements _ 0 l') as [tl'|] eqn:TL'; [|discriminate U].
      apply some_inj in T; subst t. apply some_inj in U; subst u. cbn [app] in E. rewrite <- !app_assoc in E. cbn [app] in E. injection E as E.
      inversion RV as [| | | | | |? RL|]; subst. inversion RW as [| | | | | |? RL'|]; subst.
      destruct (elements_unique l A RL l' RL' ind 0 _ _ _ _ TL TL' E) as [F G]. injection G as ->. split; [constructor; exact F|reflexivity].
    - rewrite write_dict in T, U. destruct (mems _ m) as [tl|] eqn:TL; [|discriminate T]. destruct (mems _ m') as [tl'|] eqn:TL'; [|discriminate U].
      inversion RV as [| | | | | | |? RL]; subst. inversion RW as [| | | | | | |? RL']; subst.
      assert (SO: forall (o : bool) q q', (if o then sort_keys q else Some q) = Some q' -> Permutation (A := py * pystr) q q')
        by (intros o q q' Q; destruct o; [apply sort_perm; exact Q|injection Q as <-; apply Permutation_refl]).
      destruct (if autosort then sort_keys tl else Some tl) as [sl|] eqn:SL; [|discriminate T].
      destruct (if autosort then sort_keys tl' else Some tl') as [sl'|] eqn:SL'; [|discriminate U]. apply SO in SL, SL'.
      destruct (mems_perm _ _ _ SL _ TL) as (m1 & P1 & T1). destruct (mems_perm _ _ _ SL' _ TL') as (m1' & P1' & T1').
      apply some_inj in T; subst t. apply some_inj in U; subst u. cbn [app] in E. rewrite <- !app_assoc in E. cbn [app] in E. injection E as E.
      destruct (mems_unique m1 (Permutation_Forall P1 A) m1' (Permutation_Forall P1 RL) (Permutation_Forall P1' RL') ind _ _ _ _ T1 T1' E) as [F G].
      injection G as ->. split; [|reflexivity].
      destruct (forall2_perm _ _ _ _ _ (Permutation_sym P1') _ F) as (m2 & P2 & F2). apply same_dict with (m' := m2); [etransitivity; eauto|exact F2].
  Qed.

  (** What is printed tells what the result is. *)
  Lemma prints_unique : forall v w, readable v -> readable w -> forall t,
    write_out autosort float_text bytes_text std_text other_text v = Some t -> write_out autosort float_text bytes_text std_text other_text w = Some t -> same_result v w.
  Proof.
    intros v w RV RW t T U. unfold write_out in T, U. destruct (M_Netcat.write _ _ _ _ _ v []) as [tv|] eqn:TV; [|discriminate T].
    destruct (M_Netcat.write _ _ _ _ _ w []) as [tw|] eqn:TW; [|discriminate U]. apply some_inj in T. apply some_inj in U. rewrite U in T.
    apply app_inv_head in T.
    assert (TT: type_of v = type_of w /\ tv ++ [10] = tw ++ [10]).
    { destruct (tag_form v RV) as [->|(TA & NA & QA)]; destruct (tag_form w RW) as [->|(TB & NB & QB)].
      - split; [reflexivity|]. symmetry. exact T.
      - exfalso. apply some_inj in TV. subst tv. apply (f_equal (hd 0)) in T.
        destruct RW; try (vm_compute in TB; discriminate TB); vm_compute in T; discriminate T.
      - exfalso. apply some_inj in TW. subst tw. apply (f_equal (hd 0)) in T.
        destruct RV; try (vm_compute in TA; discriminate TA); vm_compute in T; discriminate T.
      - rewrite TA, TB in T. rewrite <- !app_assoc in T. cbn [app] in T. apply cut_at in T; [|assumption..]. destruct T as [A B]. auto. }
    destruct TT as [TY E]. exact (proj1 (all_unique v RV w RW TY [] tv tw [] [] TV TW E)).
  Qed.
End Out.

(** ** Sorted members *)
Lemma lex_irrefl : forall a, lex_less a a = false.
Proof. induction a as [|x a IH]; [reflexivity|]. cbn [lex_less]. rewrite Z.ltb_irrefl, Z.eqb_refl, IH. reflexivity. Qed.
Lemma lex_trans : forall a b c, lex_less a b = true -> lex_less b c = true -> lex_less a c = true.
Proof.
  induction a as [|x a IH]; intros [|y b] [|z c] H1 H2; cbn [lex_less] in *; try discriminate; try reflexivity.
  apply orb_prop in H1. apply orb_prop in H2. apply orb_true_intro.
  destruct H1 as [H1|H1]; [|apply andb_prop in H1; destruct H1 as [H1 H1']]; (destruct H2 as [H2|H2]; [|apply andb_prop in H2; destruct H2 as [H2 H2']]); try (left; lia).
  right. rewrite (IH _ _ H1' H2'). lia.
Qed.
Lemma lex_total : forall a b, lex_less a b = true \/ a = b \/ lex_less b a = true.
Proof.
  induction a as [|x a IH]; intros [|y b]; cbn [lex_less]; auto.
  destruct (Z.lt_trichotomy x y) as [L|[->|L]]; [left; lia| |right; right; lia].
  destruct (IH b) as [H|[->|H]]; [left; rewrite H; lia|right; left; reflexivity|right; right; rewrite H; lia].
Qed.

Definition text_key (k : py) : pystr := match k with PyStr s => s | _ => [] end.
Definition text_keys {A} (l : list (py * A)) : Prop := Forall (fun kv => exists s, fst kv = PyStr s) l.
Definition key_lt {A} (a b : py * A) : Prop := lex_less (text_key (fst a)) (text_key (fst b)) = true.

Lemma insert_sorted : forall A (x : py * A) s l, fst x = PyStr s -> text_keys l -> ~ In (fst x) (map fst l) -> StronglySorted key_lt l ->
  exists l', insert_key x l = Some l' /\ StronglySorted key_lt l'.
Proof.
  intros A x s l X K N S. induction S as [|y r S IH F]; [exists [x]; split; [reflexivity|repeat constructor]|].
  cbn [insert_key]. inversion K as [|? ? (t & Y) KR]; subst. rewrite X, Y. cbn [key_less].
  destruct (lex_less s t) eqn:L.
  - exists (x :: y :: r). split; [reflexivity|]. constructor; [constructor; assumption|]. constructor.
    + unfold key_lt. rewrite X, Y. exact L.
    + eapply Forall_impl; [|exact F]. intros z Z. unfold key_lt in *. rewrite X. rewrite Y in Z. eapply lex_trans; eauto.
  - destruct IH as (l' & E & S'); [exact KR|intro I; apply N; right; exact I|]. rewrite E. exists (y :: l'). split; [reflexivity|].
    constructor; [exact S'|]. apply insert_perm in E. eapply Permutation_Forall; [exact E|]. constructor; [|exact F].
    unfold key_lt. rewrite X, Y. cbn [text_key]. destruct (lex_total s t) as [H|[->|H]]; [congruence| |exact H]. exfalso. apply N. left. congruence.
Qed.
Lemma sort_sorted : forall A (l : list (py * A)), text_keys l -> NoDup (map fst l) -> exists l', sort_keys l = Some l' /\ StronglySorted key_lt l'.
Proof.
  induction l as [|x l IH]; intros K N; [exists []; split; [reflexivity|constructor]|]. inversion K as [|? ? (s & X) KL]; subst. inversion N as [|? ? NX NL]; subst.
  destruct (IH KL NL) as (l' & E & S). cbn [sort_keys]. rewrite E. pose proof (sort_perm _ _ _ E) as P. apply insert_sorted with (s := s); auto.
  - eapply Permutation_Forall; [exact P|exact KL].
  - intro I. apply NX. eapply Permutation_in; [|exact I]. apply Permutation_map. apply Permutation_sym. exact P.
Qed.
Lemma sorted_unique : forall A (l l' : list (py * A)), StronglySorted key_lt l -> StronglySorted key_lt l' -> Permutation l l' -> l = l'.
Proof.
  induction l as [|x l IH]; intros l' S S' P; [apply Permutation_nil in P; auto|]. destruct l' as [|y l']; [apply Permutation_sym, Permutation_nil in P; discriminate P|].
  apply StronglySorted_inv in S. apply StronglySorted_inv in S'. destruct S as [S F]. destruct S' as [S' F'].
  assert (E: x = y).
  { assert (I: In x (y :: l')) by (eapply Permutation_in; [exact P|left; reflexivity]). assert (J: In y (x :: l)) by (eapply Permutation_in; [apply Permutation_sym; exact P|left; reflexivity]).
    destruct I as [->|I]; [reflexivity|]. destruct J as [->|J]; [reflexivity|]. rewrite Forall_forall in F, F'. specialize (F _ J). specialize (F' _ I).
    unfold key_lt in F, F'. pose proof (lex_trans _ _ _ F F') as C. rewrite lex_irrefl in C. discriminate C. }
  subst y. f_equal. apply IH; auto. eapply Permutation_cons_inv. exact P.
Qed.
Lemma sort_canonical : forall A (l l' : list (py * A)), text_keys l -> NoDup (map fst l) -> Permutation l l' -> sort_keys l = sort_keys l' /\ sort_keys l <> None.
Proof.
  intros A l l' K N P. destruct (sort_sorted _ l K N) as (q & E & S).
  destruct (sort_sorted _ l') as (q' & E' & S'); [eapply Permutation_Forall; eauto|eapply Permutation_NoDup; [apply Permutation_map; exact P|exact N]|].
  rewrite E, E'. split; [|discriminate]. f_equal. apply sorted_unique; auto. apply sort_perm in E, E'.
  etransitivity; [apply Permutation_sym; exact E|]. etransitivity; [exact P|exact E'].
Qed.

Section Canonical.
  Variable float_text : Z -> pystr.
  Variable bytes_text : bytes -> pystr.
  Variable std_text : datetime -> pystr.
  Variable other_text : py -> pystr.
  Let write := M_Netcat.write true float_text bytes_text std_text other_text.

  Lemma reordered_type : forall v w, reordered v w -> tagged v = tagged w.
  Proof. intros v w R. destruct R; reflexivity. Qed.

  Lemma ro_list_refl : forall l, Forall2 reordered l l.
  Proof. induction l; constructor; auto using ro_same. Qed.
  Lemma ro_members_refl : forall m : list (py * py), Forall2 (fun a b => fst a = fst b /\ reordered (snd a) (snd b)) m m.
  Proof. induction m; constructor; auto using ro_same. Qed.

  Lemma mems_perm_some : forall deeper a b, Permutation a b -> mems true float_text bytes_text std_text other_text deeper a <> None ->
    mems true float_text bytes_text std_text other_text deeper b <> None.
  Proof.
    intros deeper a b P H. destruct (mems _ _ _ _ _ _ a) as [l|] eqn:A; [|destruct (H eq_refl)]. clear H. revert l A.
    induction P as [|[k v] a b Q IH|[k v] [k2 v2] a|a b c Q1 IH1 Q2 IH2]; intros l A.
    - discriminate.
    - rewrite mems_cons in A |- *. destruct (M_Netcat.write _ _ _ _ _ v _); [|discriminate A].
      destruct (mems _ _ _ _ _ _ a) as [q|]; [|discriminate A]. specialize (IH q eq_refl). destruct (mems _ _ _ _ _ _ b); [discriminate|destruct (IH eq_refl)].
    - rewrite !mems_cons in A |- *. destruct (M_Netcat.write true float_text bytes_text std_text other_text v deeper), (M_Netcat.write true float_text bytes_text std_text other_text v2 deeper), (mems true float_text bytes_text std_text other_text deeper a); discriminate.
    - specialize (IH1 l A). destruct (mems _ _ _ _ _ _ b) as [q|]; [exact (IH2 q eq_refl)|destruct (IH1 eq_refl)].
  Qed.
  Lemma mems_perm_lines : forall deeper m m1, Permutation m m1 -> forall l l1, mems true float_text bytes_text std_text other_text deeper m = Some l ->
    mems true float_text bytes_text std_text other_text deeper m1 = Some l1 -> Permutation l l1.
  Proof.
    intros deeper m m1 P. induction P as [|[k v] m m1 P IH|[k v] [k2 v2] m|m m1 m2 P1 IH1 P2 IH2]; intros l l1 ML M1.
    - rewrite ML in M1. injection M1 as <-. apply Permutation_refl.
    - rewrite mems_cons in ML, M1. destruct (M_Netcat.write _ _ _ _ _ v _) as [t|]; [|discriminate ML].
      destruct (mems _ _ _ _ _ _ m) as [q|]; [|discriminate ML]. destruct (mems _ _ _ _ _ _ m1) as [q1|]; [|discriminate M1].
      apply some_inj in ML. apply some_inj in M1. subst. constructor. apply IH; reflexivity.
    - rewrite !mems_cons in ML, M1. destruct (M_Netcat.write _ _ _ _ _ v _) as [t|]; [|destruct (M_Netcat.write _ _ _ _ _ v2 _); discriminate ML || discriminate M1].
      destruct (M_Netcat.write _ _ _ _ _ v2 _) as [t2|]; [|discriminate ML]. destruct (mems _ _ _ _ _ _ m) as [q|]; [|discriminate ML].
      apply some_inj in ML. apply some_inj in M1. subst. apply perm_swap.
    - destruct (mems true float_text bytes_text std_text other_text deeper m1) as [l2|] eqn:E.
      + etransitivity; [apply IH1; eauto|apply IH2; eauto].
      + exfalso. apply (mems_perm_some deeper _ _ P1); [rewrite ML; discriminate|exact E].
  Qed.

  Definition prints_always (v : py) : Prop := named v -> forall w, reordered v w -> forall ind, write v ind = write w ind /\ write v ind <> None.

  Lemma mems_keys : forall deeper m l, mems true float_text bytes_text std_text other_text deeper m = Some l -> map fst l = map fst m.
  Proof.
    intros deeper. induction m as [|[k v] m IH]; intros l E; [injection E as <-; reflexivity|]. rewrite mems_cons in E.
    destruct (M_Netcat.write _ _ _ _ _ v _) as [t|]; [|discriminate E]. destruct (mems _ _ _ _ _ _ m) as [q|] eqn:Q; [|discriminate E].
    apply some_inj in E. subst l. cbn [map fst]. rewrite (IH q eq_refl). reflexivity.
  Qed.
  Lemma prints_reordered : forall v, prints_always v.
  Proof.
    apply py_induct.
    - intros v AT N w R ind. destruct R; [|destruct AT|destruct AT]. split; [reflexivity|]. destruct v; try discriminate; destruct AT.
    - intros l F N w R ind. inversion N as [? AT|? NL|]; subst; [destruct AT|].
      assert (EL: forall deeper l2, Forall2 reordered l l2 -> forall i,
        elements true float_text bytes_text std_text other_text deeper i l = elements true float_text bytes_text std_text other_text deeper i l2 /\
        elements true float_text bytes_text std_text other_text deeper i l <> None).
      { intros deeper l2 F2. clear N R. induction F2 as [|a b la lb RA F2 IH]; intro i; [split; [reflexivity|discriminate]|].
        inversion F as [|? ? PA FL]; subst. inversion NL as [|? ? NA NL']; subst. rewrite !elements_cons.
        destruct (PA NA b RA deeper) as [E1 E2]. destruct (IH FL NL' (i + 1)) as [E3 E4]. unfold write in E1, E2. rewrite <- E1, <- E3, (reordered_type _ _ RA).
        split; [reflexivity|]. destruct (M_Netcat.write _ _ _ _ _ a _); [|destruct (E2 eq_refl)]. destruct (elements _ _ _ _ _ _ _ la); [discriminate|destruct (E4 eq_refl)]. }
      assert (EL2: exists l2, w = PyList l2 /\ Forall2 reordered l l2).
      { inversion R as [?|? l2 F2|]; subst; [exists l; split; [reflexivity|apply ro_list_refl]|exists l2; auto]. }
      destruct EL2 as (l2 & -> & F2). destruct (EL (ind ++ ustr "    ") l2 F2 0) as [E1 E2]. unfold write. rewrite !write_list, <- E1.
      split; [reflexivity|]. destruct (elements _ _ _ _ _ _ 0 l); [discriminate|destruct (E2 eq_refl)].
    - intros m F N w R ind. inversion N as [? AT| |? NM ND]; subst; [destruct AT|].
      assert (EM: exists m1 m2, w = PyDict m2 /\ Permutation m m1 /\ Forall2 (fun a b => fst a = fst b /\ reordered (snd a) (snd b)) m1 m2).
      { inversion R as [?| |? m1 m2 P F2]; subst; [|exists m1, m2; auto]. exists m, m. split; [reflexivity|]. split; [apply Permutation_refl|apply ro_members_refl]. }
      destruct EM as (m1 & m2 & -> & P & F2). unfold write. rewrite !write_dict. set (deeper := ind ++ ustr "    ").
      assert (EL: forall a b, Forall (fun kv => prints_always (snd kv)) a -> Forall (fun kv => (exists k, fst kv = PyStr k) /\ named (snd kv)) a ->
        Forall2 (fun a b => fst a = fst b /\ reordered (snd a) (snd b)) a b ->
        mems true float_text bytes_text std_text other_text deeper a = mems true float_text bytes_text std_text other_text deeper b /\
        mems true float_text bytes_text std_text other_text deeper a <> None).
      { intros a b PA NA F3. induction F3 as [|[k v] [k' v'] la lb [KE RA] F3 IH]; [split; [reflexivity|discriminate]|]. cbn [fst snd] in KE, RA. subst k'.
        inversion PA as [|? ? PV PL]; subst. inversion NA as [|? ? [_ NV] NL]; subst. cbn [snd] in PV, NV. rewrite !mems_cons.
        destruct (PV NV v' RA deeper) as [E1 E2]. destruct (IH PL NL) as [E3 E4]. unfold member. unfold write in E1, E2. rewrite <- E1, <- E3, (reordered_type _ _ RA).
        split; [reflexivity|]. destruct (M_Netcat.write _ _ _ _ _ v _); [|destruct (E2 eq_refl)]. destruct (mems _ _ _ _ _ _ la); [discriminate|destruct (E4 eq_refl)]. }
      assert (SELF: Forall2 (fun a b => fst a = fst b /\ reordered (snd a) (snd b)) m m) by apply ro_members_refl.
      destruct (EL m m F NM SELF) as [_ NZ]. destruct (mems _ _ _ _ _ deeper m) as [l|] eqn:ML; [|destruct (NZ eq_refl)]. clear NZ.
      destruct (EL m1 m2 (Permutation_Forall P F) (Permutation_Forall P NM) F2) as [E1 E2].
      destruct (mems _ _ _ _ _ deeper m1) as [l1|] eqn:M1; [|destruct (E2 eq_refl)]. rewrite <- E1.
      assert (PL: Permutation l l1).
      { exact (mems_perm_lines _ _ _ P _ _ ML M1). }
      pose proof (mems_keys _ _ _ ML) as KS.
      destruct (sort_canonical _ l l1) as [S1 S2].
      + unfold text_keys. rewrite Forall_forall in NM |- *. intros [k t] I. apply (in_map fst) in I. rewrite KS in I. apply in_map_iff in I. destruct I as ([k2 x] & E & I).
        cbn [fst] in *. subst k2. destruct (NM _ I) as [H _]. exact H.
      + rewrite KS. exact ND.
      + exact PL.
      + rewrite <- S1. split; [reflexivity|]. destruct (sort_keys l); [discriminate|destruct (S2 eq_refl)].
  Qed.
End Canonical.
