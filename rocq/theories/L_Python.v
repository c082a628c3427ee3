(** Lemmas: the Python binding. *)
From Coq Require Import Lia Permutation.
From Verif Require Import Base Value Unicode M_Marshal M_BinUnmarshal M_TreeBuilder S_Value S_Wire M_Python S_Python L_Base L_Bits L_RoundTrip
  L_TreeBuilder L_Dup L_BinUnmarshal L_Message L_Wire L_JsText L_JsCall L_PyText.
Ltac Zify.zify_post_hook ::= Z.div_mod_to_equations.

(** ** Induction on objects *)
Section py_ind.
  Variable P : py -> Prop.
  Hypothesis HNone : P PyNone.
  Hypothesis HBool : forall b, P (PyBool b).
  Hypothesis HBoolean : forall b, P (PyBoolean b).
  Hypothesis HInt : forall z, P (PyInt z).
  Hypothesis HFloat : forall d, P (PyFloat d).
  Hypothesis HBytes : forall s, P (PyBytes s).
  Hypothesis HStr : forall s, P (PyStr s).
  Hypothesis HDate : forall d, P (PyDate d).
  Hypothesis HStd : forall d, P (PyStdDate d).
  Hypothesis HList : forall l, Forall P l -> P (PyList l).
  Hypothesis HTuple : forall l, Forall P l -> P (PyTuple l).
  Hypothesis HDict : forall m, Forall (fun kv => P (snd kv)) m -> P (PyDict m).
  Hypothesis HFault : forall c m, P (PyFault c m).
  Hypothesis HOther : P PyOther.
  Fixpoint py_nested_ind (p : py) : P p :=
    match p with
    | PyNone => HNone | PyBool b => HBool b | PyBoolean b => HBoolean b | PyInt z => HInt z | PyFloat d => HFloat d
    | PyBytes s => HBytes s | PyStr s => HStr s | PyDate d => HDate d | PyStdDate d => HStd d
    | PyList l => HList l ((fix go (l : list py) : Forall P l := match l with [] => Forall_nil _ | x :: r => Forall_cons x (py_nested_ind x) (go r) end) l)
    | PyTuple l => HTuple l ((fix go (l : list py) : Forall P l := match l with [] => Forall_nil _ | x :: r => Forall_cons x (py_nested_ind x) (go r) end) l)
    | PyDict m =>
        HDict m ((fix go (l : list (py * py)) : Forall (fun kv => P (snd kv)) l :=
                    match l with [] => Forall_nil _ | (k, x) :: r => Forall_cons (k, x) (py_nested_ind x) (go r) end) m)
    | PyFault c m => HFault c m
    | PyOther => HOther
    end.
End py_ind.

(** Conditions on all items. *)
Lemma all_items : forall (Q : py -> Prop) l,
  (fix all (l : list py) : Prop := match l with [] => True | x :: r => Q x /\ all r end) l <-> Forall Q l.
Proof. induction l as [|x l IH]; [split; auto|]. rewrite IH. split; [intros [A B]; auto|intro F; inversion F; auto]. Qed.
Lemma all_members : forall (Q : py * py -> Prop) l,
  (fix all (l : list (py * py)) : Prop := match l with [] => True | (k, x) :: r => Q (k, x) /\ all r end) l <-> Forall Q l.
Proof. induction l as [|[k x] l IH]; [split; auto|]. rewrite IH. split; [intros [A B]; auto|intro F; inversion F; auto]. Qed.
Lemma all_members2 : forall (Q R : py * py -> Prop) l,
  (fix all (l : list (py * py)) : Prop := match l with [] => True | (k, x) :: r => Q (k, x) /\ R (k, x) /\ all r end) l <-> Forall (fun kv => Q kv /\ R kv) l.
Proof. induction l as [|[k x] l IH]; [split; auto|]. rewrite IH. split; [intros (A & B & C); auto|intro F; inversion F; tauto]. Qed.

(** ** Feeding *)
Lemma encode_str : forall u, is_str u -> (Forall uchar u /\ py_encode u = Some (flat_map utf8_char u)) \/ (~ Forall uchar u /\ py_encode u = None).
Proof.
  intros u S. unfold py_encode. destruct (existsb is_surrogate u) eqn:E.
  - right. split; [|reflexivity]. intro F. apply existsb_exists in E as (c & I & X). rewrite Forall_forall in F. specialize (F c I).
    unfold is_surrogate in X. unfold uchar in F. lia.
  - left. split; [|reflexivity]. unfold is_str in S. rewrite Forall_forall in *. intros c I. specialize (S c I). cbn beta in S. unfold uchar.
    assert (X : is_surrogate c = false).
    { destruct (is_surrogate c) eqn:X; [|reflexivity]. assert (existsb is_surrogate u = true) by (apply existsb_exists; eauto). congruence. }
    unfold is_surrogate in X. lia.
Qed.

Lemma as_int_spec : forall z, ~ 2 ^ 63 <= z < 2 ^ 64 -> as_int z = if (- 2 ^ 63 <=? z) && (z <? 2 ^ 63) then Some z else None.
Proof.
  intros z N. unfold as_int. destruct ((num_bits z =? 64) && (0 <? z)) eqn:E; [|reflexivity].
  apply andb_true_iff in E as [A B]. unfold num_bits in A. destruct (Z.eqb_spec z 0); [lia|].
  assert (L : Z.log2 z = 63) by (rewrite Z.abs_eq in A by lia; lia). pose proof (Z.log2_spec z ltac:(lia)) as S. rewrite L in S.
  exfalso. change (Z.succ 63) with 64 in S. lia.
Qed.
Lemma as_int_large : forall z, 2 ^ 63 <= z < 2 ^ 64 -> as_int z = Some (z - 2 ^ 64).
Proof.
  intros z R. unfold as_int, num_bits. destruct (Z.eqb_spec z 0); [lia|]. rewrite Z.abs_eq by lia.
  assert (L : Z.log2 z = 63) by (apply Z.log2_unique; [lia|exact R]). rewrite L. destruct (Z.ltb_spec 0 z); [|lia]. cbn [Z.eqb Z.add Pos.add Pos.succ Pos.eqb andb].
  f_equal. unfold s64, signed. cbv zeta. rewrite Z.mod_small by lia. change (2 ^ (64 - 1)) with (2 ^ 63). destruct (Z.ltb_spec z (2 ^ 63)); lia.
Qed.

Section Feed.
  Variable host : datetime -> datetime.
  Variable ver : version.
  Hypothesis HM : modern ver.

  Definition key_bytes (k : py) : bytes := match k with PyStr u => flat_map utf8_char u | _ => [] end.
  Fixpoint value_of (p : py) : value :=
    match p with
    | PyBool b | PyBoolean b => VBool b
    | PyInt z => VInt z
    | PyFloat d => VDouble d
    | PyBytes s => VBinary s
    | PyStr u => VString (flat_map utf8_char u)
    | PyDate d => VDateTime d
    | PyStdDate d => VDateTime (as_local host d)
    | PyList l | PyTuple l => VArray (map value_of l)
    | PyDict m => VStruct (map (fun kv => (key_bytes (fst kv), value_of (snd kv))) m)
    | PyNone | PyFault _ _ | PyOther => VNull
    end.

  Definition good (fe : list mcall * option pyexn) (v : value) : Prop :=
    snd fe = None /\ bin_run ver (fst fe) = bin_run ver (feed v) /\ wfu ver v.
  Definition plain_exn (e : exn) : Prop := e = LenError \/ exists m, e = StreamError m.
  Definition bad (fe : list mcall * option pyexn) : Prop :=
    (exists e, snd (bin_run ver (fst fe)) = Some (Exn e) /\ plain_exn e) \/ (snd (bin_run ver (fst fe)) = None /\ exists e, snd fe = Some e).

  Lemma bad_written : forall fe, bad fe -> exists e, written ver fe = PyRaise e.
  Proof.
    intros fe B. unfold written. unfold bad in B. destruct (bin_run ver (fst fe)) as [o f]. cbn [fst snd] in *.
    destruct B as [(e & E & P)|[E (x & X)]]; cbn [snd] in E; subst f.
    - destruct P as [->|[m ->]]; cbn [of_fail]; eauto.
    - rewrite X. eauto.
  Qed.
  Lemma bad_cons : forall c o fe, bin_pack ver c = (o, None) -> bad fe -> bad (c :: fst fe, snd fe).
  Proof.
    intros c o fe E B. unfold bad in *. cbn [fst snd bin_run]. rewrite E. destruct (bin_run ver (fst fe)) as [o' f]. exact B.
  Qed.
  Lemma bad_cons_fail : forall c o e r, bin_pack ver c = (o, Some (Exn e)) -> plain_exn e -> bad (c :: fst r, snd r).
  Proof. intros c o e r E P. left. cbn [fst bin_run]. rewrite E. exists e. split; [reflexivity|exact P]. Qed.

  Lemma feed_values : forall v, wfu ver v -> snd (bin_run ver (feed v)) = None.
  Proof.
    intros v W. destruct (decodes_any (list event) record_step 0 ver HM v W (idle ver 0 0) [] [] ([] ++ events v) [] ([] ++ events v) (idle_at_value ver 0)) as [Q _]; auto.
    generalize (@nil event). induction (events v) as [|e es IH]; intro l; [cbn; rewrite app_nil_r; reflexivity|].
    cbn [replay record_step]. rewrite IH, <- app_assoc. reflexivity.
  Qed.

  Lemma feed_append : forall v c', wfu ver v -> forall c, bin_run ver c = bin_run ver (feed v) ->
    bin_run ver (c ++ c') = bin_run ver (feed v ++ c').
  Proof. intros v c' W c E. rewrite !bin_run_app, E. reflexivity. Qed.

  Definition fed (p : py) : Prop := (py_sends ver p /\ good (feed_py host p) (value_of p)) \/ (~ py_sends ver p /\ bad (feed_py host p)).

  Lemma fed_seq : forall l, Forall fed l ->
    (Forall (py_sends ver) l /\ snd (feed_seq (feed_py host) l) = None /\
     bin_run ver (fst (feed_seq (feed_py host) l)) = bin_run ver (flat_map feed (map value_of l)) /\ Forall (wfu ver) (map value_of l)) \/
    (~ Forall (py_sends ver) l /\ bad (feed_seq (feed_py host) l)).
  Proof.
    induction 1 as [|x l F _ IH]; [left; repeat split; constructor|]. cbn [feed_seq map flat_map].
    destruct F as [[S (G1 & G2 & G3)]|[S B]].
    - destruct (feed_py host x) as [c e]. cbn [fst snd] in *. subst e.
      destruct IH as [(A & B & C & D)|[A B]].
      + left. destruct (feed_seq (feed_py host) l) as [c' e']. cbn [fst snd] in *. subst e'. split; [auto|]. split; [reflexivity|]. split; [|auto].
        rewrite !bin_run_app, G2, C. reflexivity.
      + right. split; [intro X; inversion X; auto|]. destruct (feed_seq (feed_py host) l) as [c' e']. cbn [fst snd] in *.
        unfold bad in *. cbn [fst snd] in *. rewrite bin_run_app, G2. pose proof (feed_values _ G3) as N. destruct (bin_run ver (feed (value_of x))) as [o f]. cbn [snd] in N. subst f.
        destruct (bin_run ver c') as [o' f']. exact B.
    - right. split; [intro X; inversion X; auto|]. destruct (feed_py host x) as [c [e|]]; [exact B|].
      destruct B as [(e & E & P)|[_ (e & E)]]; [|discriminate]. cbn [fst] in E.
      destruct (feed_seq (feed_py host) l) as [c' e']. left. exists e. cbn [fst]. rewrite bin_run_app. destruct (bin_run ver c) as [o f]. cbn [snd] in E. subst f. auto.
  Qed.

  Lemma fed_items : forall m, Forall (fun kv => (forall u, fst kv = PyStr u -> is_str u) /\ fed (snd kv)) m ->
    let ok kv := (exists u, fst kv = PyStr u /\ name_fits u) /\ py_sends ver (snd kv) in
    (Forall ok m /\ snd (feed_items (feed_py host) m) = None /\
     bin_run ver (fst (feed_items (feed_py host) m)) = bin_run ver (feed_members (map (fun kv => (key_bytes (fst kv), value_of (snd kv))) m)) /\
     Forall (fun kv => 1 <= blen (fst kv) <= 255 /\ wfu ver (snd kv)) (map (fun kv => (key_bytes (fst kv), value_of (snd kv))) m)) \/
    (~ Forall ok m /\ bad (feed_items (feed_py host) m)).
  Proof.
    intros m F ok. induction F as [|[k x] m [KS F] _ IH]; [left; repeat split; constructor|]. cbn [fst snd] in *.
    assert (NO : ~ ok (k, x) -> ~ Forall ok ((k, x) :: m)) by (intros N X; inversion X; auto).
    assert (NS : forall u, k = PyStr u -> ~ name_fits u -> ~ ok (k, x)).
    { intros u -> N [(u' & E & B) _]. cbn [fst] in E. inversion E; subst. auto. }
    assert (NK : (forall u, k <> PyStr u) -> (~ Forall ok ((k, x) :: m) /\ bad ([], Some PE_Type))).
    { intro N. split; [apply NO; intros [(u & E & _) _]; eapply N; eauto|]. right. split; [reflexivity|]. eexists. reflexivity. }
    destruct k; try (right; cbn [feed_items]; apply NK; congruence). clear NK.
    specialize (KS s eq_refl). cbn [feed_items map fst snd key_bytes].
    destruct (encode_str s KS) as [[U E]|[U E]]; rewrite E.
    2:{ right. split; [apply NO, (NS s eq_refl); intros [X _]; auto|]. right. split; [reflexivity|]. eexists. reflexivity. }
    set (kb := flat_map utf8_char s) in *.
    destruct ((255 <? blen kb) || (blen kb =? 0)) eqn:EL.
    { assert (BP : bin_pack ver (PMember kb) = ([], Some (Exn LenError))) by (cbn [bin_pack]; rewrite EL; reflexivity).
      assert (NF : ~ name_fits s) by (intros [_ X]; fold kb in X; apply orb_true_iff in EL; lia).
      right. split; [apply NO, (NS s eq_refl NF)|].
      assert (PX : plain_exn LenError) by (left; reflexivity).
      destruct (feed_py host x) as [c [e|]]; [exact (bad_cons_fail _ _ _ (c, Some e) BP PX)|].
      destruct (feed_items (feed_py host) m) as [c' e']. exact (bad_cons_fail _ _ _ (c ++ c', e') BP PX). }
    assert (BP : bin_pack ver (PMember kb) = (z2b (blen kb) :: kb, None)) by (cbn [bin_pack]; rewrite EL; reflexivity).
    assert (LK : 1 <= blen kb <= 255) by (apply orb_false_iff in EL as [X Y]; pose proof (zlen_nonneg _ kb); rewrite (blen_zlen kb) in *; lia).
    destruct F as [[S (G1 & G2 & G3)]|[S B]].
    - destruct (feed_py host x) as [c e]. cbn [fst snd] in *. subst e. unfold feed_members in *. cbn [flat_map fst snd app].
      destruct IH as [(A & B & C & D)|[A B]].
      + left. destruct (feed_items (feed_py host) m) as [c' e']. cbn [fst snd] in *. subst e'.
        split; [constructor; auto; split; [exists s; repeat split; auto; fold kb; lia|exact S]|]. split; [reflexivity|]. split; [|auto].
        cbn [bin_run]. rewrite BP, !bin_run_app, G2, C. reflexivity.
      + right. split; [intro X; inversion X; auto|]. destruct (feed_items (feed_py host) m) as [c' e'].
        apply (bad_cons _ _ (c ++ c', e') BP). unfold bad in *. cbn [fst snd] in *. rewrite bin_run_app, G2. pose proof (feed_values _ G3) as N.
        destruct (bin_run ver (feed (value_of x))) as [o f]. cbn [snd] in N. subst f. destruct (bin_run ver c') as [o' f']. exact B.
    - right. split; [apply NO; intros [_ X]; auto|]. destruct (feed_py host x) as [c [e|]]; [exact (bad_cons _ _ (c, Some e) BP B)|].
      destruct (feed_items (feed_py host) m) as [c' e']. apply (bad_cons _ _ (c ++ c', e') BP). cbn [snd].
      destruct B as [(e & E' & P)|[_ (e & E')]]; [|discriminate]. cbn [fst] in E'. left. exists e. cbn [fst]. rewrite bin_run_app.
      destruct (bin_run ver c) as [o f]. cbn [snd] in E'. subst f. auto.
  Qed.

  Lemma chars_ok : forall d, dt_ok (unix_bits ver) d -> dt_as_chars d = d.
  Proof.
    intros d (Y & MO & DA & HO & MI & SE & WD & _). destruct d as [y mo da h mi se w un tz]. unfold dt_as_chars. cbn [dt_year dt_month dt_day dt_hour dt_min dt_sec dt_wday dt_unix dt_tz] in *.
    rewrite !s8_id by (unfold in_s8; lia). reflexivity.
  Qed.
  Lemma good_one : forall c v, feed v = [c] -> wfu ver v -> good ([c], None) v.
  Proof. intros c v E W. split; [reflexivity|]. split; [cbn [fst]; rewrite E; reflexivity|exact W]. Qed.
  Lemma bad_none : forall e, bad ([], Some e).
  Proof. intro e. right. split; [reflexivity|]. eexists. reflexivity. Qed.

  Lemma fed_all : forall p, is_object p -> within host ver p -> no_large p -> fed p.
  Proof.
    induction p as [|b|b|z|d|s|s|d|d|l IH|l IH|m IH|c m|] using py_nested_ind; intros O W N; cbn [is_object within no_large] in *.
    - destruct HM as [V MI]. destruct ((v_major ver <? 2) || (v_major ver =? 2) && (v_minor ver <? 1)) eqn:E.
      + right. cbn [py_sends]. split.
        * unfold has_null. destruct (Z.ltb_spec (v_major ver) 2); [lia|]. cbn [orb] in E. apply andb_true_iff in E as [E1 E2]. lia.
        * left. cbn [feed_py fst bin_run bin_pack]. rewrite E. eexists. split; [reflexivity|]. right. eauto.
      + left. assert (H : has_null ver).
        { unfold has_null. destruct (Z.ltb_spec (v_major ver) 2); [discriminate|]. cbn [orb] in E. apply andb_false_iff in E as [E|E]; lia. }
        split; [exact H|]. apply good_one; [reflexivity|exact H].
    - left. split; [exact I|]. apply good_one; [reflexivity|exact I].
    - left. split; [exact I|]. apply good_one; [reflexivity|exact I].
    - unfold fed. cbn [py_sends feed_py value_of]. rewrite as_int_spec by auto. destruct ((- 2 ^ 63 <=? z) && (z <? 2 ^ 63)) eqn:E.
      + apply andb_true_iff in E as [E1 E2]. left. assert (R : in_s64 z) by (unfold in_s64; lia). split; [exact R|]. apply good_one; [reflexivity|exact R].
      + right. split; [intro R; unfold in_s64 in R; apply andb_false_iff in E; lia|]. apply bad_none.
    - left. split; [exact I|]. apply good_one; [reflexivity|exact O].
    - left. split; [exact I|]. apply good_one; [reflexivity|]. cbn [value_of wfu wf]. unfold small. pose proof (zlen_nonneg _ s). rewrite (blen_zlen s) in *. lia.
    - unfold fed. cbn [py_sends feed_py value_of]. destruct (encode_str s O) as [[U E]|[U E]]; rewrite E.
      + left. split; [exact U|]. apply good_one; [reflexivity|]. cbn [value_of wfu wf]. unfold small. set (t := flat_map utf8_char s) in *.
        pose proof (zlen_nonneg _ t). rewrite (blen_zlen t) in *. lia.
      + right. split; [exact U|]. apply bad_none.
    - left. split; [exact I|]. apply good_one; [|exact W]. cbn [value_of feed]. rewrite chars_ok by auto. reflexivity.
    - left. split; [exact I|]. split; [reflexivity|]. split; [|exact W]. cbn [feed_py fst value_of feed]. rewrite chars_ok by auto.
      set (t := as_local host d) in *. assert (EQ : std_date host d = mkDT (dt_year t) (dt_month t) (dt_day t) (dt_hour t) (dt_min t) (dt_sec t) (dt_wday t) (dt_unix t) (-1)).
      { destruct W as (Y & MO & DA & HO & MI & SE & WD & _). unfold std_date, t, as_local, fields in *. set (h := host _) in *.
        cbn [dt_year dt_month dt_day dt_hour dt_min dt_sec dt_wday dt_unix dt_tz] in *.
        rewrite s16_id by (unfold in_s16; lia). rewrite !s8_id by (unfold in_s8; lia). reflexivity. }
      rewrite EQ. cbn [bin_run bin_pack]. unfold pack_datetime. cbv zeta.
      cbn [dt_year dt_month dt_day dt_hour dt_min dt_sec dt_wday dt_unix dt_tz]. assert (Z0 : dt_tz t = 0) by reflexivity. rewrite Z0. reflexivity.
    - destruct W as [L W]. apply all_items in O. apply all_items in W. apply all_items in N.
      assert (F : Forall fed l) by (rewrite Forall_forall in *; intros x I; apply IH; auto).
      pose proof (zlen_nonneg _ l) as LL. unfold fed. cbn [py_sends]. rewrite all_items. cbn [feed_py value_of].
      destruct (fed_seq l F) as [(A & B & C & D)|[A B]]; destruct (feed_seq (feed_py host) l) as [c e]; cbn [fst snd] in *.
      + left. split; [exact A|]. subst e. split; [reflexivity|]. split; [|apply wfu_array; rewrite zlen_map; split; [unfold small; lia|exact D]].
        cbn [fst]. rewrite feed_array, zlen_map. cbn [bin_run]. rewrite C. reflexivity.
      + right. split; [exact A|]. eapply (bad_cons _ _ (c, e)); [reflexivity|exact B].
    - destruct W as [L W]. apply all_items in O. apply all_items in W. apply all_items in N.
      assert (F : Forall fed l) by (rewrite Forall_forall in *; intros x I; apply IH; auto).
      pose proof (zlen_nonneg _ l) as LL. unfold fed. cbn [py_sends]. rewrite all_items. cbn [feed_py value_of].
      destruct (fed_seq l F) as [(A & B & C & D)|[A B]]; destruct (feed_seq (feed_py host) l) as [c e]; cbn [fst snd] in *.
      + left. split; [exact A|]. subst e. split; [reflexivity|]. split; [|apply wfu_array; rewrite zlen_map; split; [unfold small; lia|exact D]].
        cbn [fst]. rewrite feed_array, zlen_map. cbn [bin_run]. rewrite C. reflexivity.
      + right. split; [exact A|]. eapply (bad_cons _ _ (c, e)); [reflexivity|exact B].
    - destruct W as [L W]. destruct O as [ND O]. rewrite (all_members2 (fun kv => is_object (fst kv)) (fun kv => is_object (snd kv))) in O.
      rewrite (all_members (fun kv => within host ver (snd kv))) in W. rewrite (all_members (fun kv => no_large (snd kv))) in N.
      assert (F : Forall (fun kv => (forall u, fst kv = PyStr u -> is_str u) /\ fed (snd kv)) m).
      { rewrite Forall_forall in *. intros kv I. destruct (O kv I) as [O1 O2]. split; [|apply IH; auto].
        intros u E. rewrite E in O1. exact O1. }
      pose proof (zlen_nonneg _ m) as LL. unfold fed. cbn [py_sends].
      rewrite (all_members2 (fun kv => exists u, fst kv = PyStr u /\ name_fits u) (fun kv => py_sends ver (snd kv))). cbn [feed_py value_of].
      destruct (fed_items m F) as [(A & B & C & D)|[A B]]; destruct (feed_items (feed_py host) m) as [c e]; cbn [fst snd] in *.
      + left. split; [exact A|]. subst e. split; [reflexivity|]. split; [|apply wfu_struct; rewrite zlen_map; split; [unfold small; lia|exact D]].
        cbn [fst]. rewrite feed_struct, zlen_map. cbn [bin_run]. rewrite C. reflexivity.
      + right. split; [exact A|]. eapply (bad_cons _ _ (c, e)); [reflexivity|exact B].
    - right. split; [intros []|]. apply bad_none.
    - right. split; [intros []|]. apply bad_none.
  Qed.

  (** ** What arrives *)
  Lemma str_inj : forall a b, Forall uchar a -> Forall uchar b -> flat_map utf8_char a = flat_map utf8_char b -> a = b.
  Proof.
    intros a b A B E. pose proof (decode_same false (flat_map utf8_char a) a (conj A eq_refl)) as X.
    pose proof (decode_same false (flat_map utf8_char b) b (conj B eq_refl)) as Y. congruence.
  Qed.
  Lemma nodup_keys : forall m : list (py * py), NoDup (map fst m) -> Forall (fun kv => exists u, fst kv = PyStr u /\ name_fits u) m ->
    NoDup (map (fun kv => key_bytes (fst kv)) m).
  Proof.
    induction m as [|[k x] m IH]; intros D F; cbn [map fst] in *; [constructor|]. inversion D; subst. inversion F as [|? ? (u & E & U) F']; subst. cbn [fst] in E. subst k.
    constructor; [|auto]. intro I. apply in_map_iff in I as ([k' x'] & E & I). rewrite Forall_forall in F'. destruct (F' _ I) as (u' & E' & U'). cbn [fst key_bytes] in *. subst k'.
    cbn [key_bytes] in E. apply str_inj in E; [|apply U'|apply U]. subst. apply H1. apply in_map_iff. exists (PyStr u, x'). auto.
  Qed.

  Lemma settled_means : forall p, is_object p -> py_sends ver p -> means host (settled (fun d => d) (value_of p)) p.
  Proof.
    induction p as [|b|b|z|d|s|s|d|d|l IH|l IH|m IH|c m|] using py_nested_ind; intros O S; cbn [is_object py_sends value_of settled plain] in *; try constructor; try contradiction.
    - split; auto.
    - apply all_items in O. apply all_items in S. rewrite map_map. clear - IH O S. induction l as [|x l IL]; cbn [map]; constructor; inversion IH; inversion O; inversion S; subst; auto.
    - apply all_items in O. apply all_items in S. rewrite map_map. clear - IH O S. induction l as [|x l IL]; cbn [map]; constructor; inversion IH; inversion O; inversion S; subst; auto.
    - destruct O as [ND O]. rewrite (all_members2 (fun kv => is_object (fst kv)) (fun kv => is_object (snd kv))) in O.
      rewrite (all_members2 (fun kv => exists u, fst kv = PyStr u /\ name_fits u) (fun kv => py_sends ver (snd kv))) in S.
      rewrite map_map. cbn [fst snd].
      set (l := map (fun kv : py * py => (key_bytes (fst kv), settled (fun d => d) (value_of (snd kv)))) m).
      assert (P : Permutation (set_all [] l) l).
      { rewrite <- (app_nil_r l) at 2. apply set_all_perm. rewrite app_nil_r. unfold l. rewrite map_map. cbn [fst]. apply nodup_keys; auto.
        eapply Forall_impl; [|exact S]. intros kv [A _]. exact A. }
      assert (F : Forall2 (fun kv kp => (exists u, fst kp = PyStr u /\ same_str (fst kv) u) /\ means host (snd kv) (snd kp)) l m).
      { unfold l. clear - IH O S. induction m as [|[k x] m IM]; cbn [map]; constructor; inversion IH; inversion O as [|? ? [O1 O2]]; inversion S as [|? ? [(u & E & U) S2]]; subst; auto.
        cbn [fst snd] in *. subst k. split; [|auto]. exists u. split; [reflexivity|]. split; [apply U|reflexivity]. }
      destruct (Permutation_Forall2 (Permutation_sym P) F) as (m' & P' & F'). apply means_dict with m'; [exact F'|symmetry; exact P'].
  Qed.
End Feed.
