(** Lemmas: what the C++ library reads from the calls of JavaScript. *)
From Coq Require Import Lia Permutation.
From Verif Require Import Base Value Unicode M_Marshal M_BinUnmarshal M_TreeBuilder S_Value S_Wire M_Js S_Js L_Base L_Bits L_RoundTrip
  L_TreeBuilder L_Dup L_BinUnmarshal L_Message L_Wire L_JsText L_Js.
Ltac Zify.zify_post_hook ::= Z.div_mod_to_equations.

(** ** Members in any order *)
(** What the builder makes: members as [Struct_t::append] arranges them. *)
Fixpoint settled (f : datetime -> datetime) (v : value) : value :=
  match v with
  | VStruct m => VStruct (set_all [] (map (fun kv => (fst kv, settled f (snd kv))) m))
  | VArray l => VArray (map (settled f) l)
  | VSecret x => settled f x
  | x => plain f x
  end.

Section Build.
  Variable val : option mktime_t.
  Variable ver : version.
  Notation rb := (settled (make_datetime val)).
  Notation tstep := (tb_step val).

  Definition builds_as (v : value) : Prop :=
    forall t f r f', tb_stack t = f :: r -> frame_add (tb_member t) (rb v) f = Ok f' ->
      exists m, replay tstep t (events v) = (with_stack (f' :: r) m t, None).

  Lemma as_scalar : forall v e, events v = [e] -> (forall t, tstep t e = tb_value t (rb v)) -> builds_as v.
  Proof.
    intros v e EE HS t f r f' ST FA. exists (tb_member t). rewrite EE. cbn [replay].
    rewrite HS. unfold tb_value. rewrite ST, FA. reflexivity.
  Qed.

  Lemma as_items : forall l t k acc r, Forall builds_as l ->
    tb_stack t = mkFrame k (BArr acc) :: r ->
    exists m, replay tstep t (flat_map events l) = (with_stack (mkFrame k (BArr (acc ++ map rb l)) :: r) m t, None).
  Proof.
    induction l as [|x l IH]; intros t k acc r F ST; cbn [flat_map map replay].
    - exists (tb_member t). rewrite app_nil_r, <- ST. destruct t; reflexivity.
    - inversion F; subst.
      destruct (H1 t (mkFrame k (BArr acc)) r (mkFrame k (BArr (acc ++ [rb x]))) ST eq_refl) as [m E].
      rewrite replay_app, E.
      destruct (IH (with_stack (mkFrame k (BArr (acc ++ [rb x])) :: r) m t) k (acc ++ [rb x]) r H2 eq_refl) as [m' E'].
      exists m'. rewrite E'. rewrite <- app_assoc. reflexivity.
  Qed.

  Lemma as_members : forall l t k acc r,
    Forall (fun kv => blen (fst kv) <= 255 /\ builds_as (snd kv)) l ->
    tb_stack t = mkFrame k (BStruct acc) :: r ->
    exists m, replay tstep t (flat_map member_events l) =
              (with_stack (mkFrame k (BStruct (set_all acc (map (fun kv => (fst kv, rb (snd kv))) l))) :: r) m t, None).
  Proof.
    induction l as [|[key x] l IH]; intros t k acc r F ST; cbn [flat_map map replay].
    - exists (tb_member t). cbn [set_all fold_left]. rewrite <- ST. destruct t; reflexivity.
    - inversion F as [|? ? [HN HB] F']; subst. cbn [fst snd] in HN, HB.
      unfold member_events at 1. cbn [fst snd app]. cbn [replay tb_step].
      set (t1 := mkTB (tb_stack t) (tb_root t) (tb_first t) key (tb_method t) (tb_errnum t) (tb_errmsg t) (tb_under t)).
      assert (FA : frame_add (tb_member t1) (rb x) (mkFrame k (BStruct acc)) = Ok (mkFrame k (BStruct (map_set key (rb x) acc)))).
      { unfold frame_add. cbn [f_body f_key t1 tb_member]. unfold struct_append.
        replace (255 <? blen key) with false by (symmetry; apply Z.ltb_ge; lia). reflexivity. }
      destruct (HB t1 (mkFrame k (BStruct acc)) r _ ST FA) as [m E].
      rewrite replay_app, E.
      destruct (IH (with_stack (mkFrame k (BStruct (map_set key (rb x) acc)) :: r) m t1) k _ r F' eq_refl) as [m2 E2].
      exists m2. rewrite E2. reflexivity.
  Qed.

  Lemma as_all : forall v, wfu ver v -> builds_as v.
  Proof.
    induction v using value_nested_ind; intro W; try (eapply as_scalar; [reflexivity|]; reflexivity).
    - apply wfu_struct in W. destruct W as (_ & FW).
      assert (FB : Forall (fun kv => blen (fst kv) <= 255 /\ builds_as (snd kv)) m).
      { rewrite Forall_forall in *. intros kv HI. destruct (FW kv HI) as [A C]. split; [lia|]. apply H; auto. }
      intros t f r f' ST FA. rewrite events_struct. cbn [replay tb_step]. unfold tb_open. rewrite ST.
      destruct (frame_add_any _ _ (body_value (BStruct [])) _ _ FA) as [g Eg]. rewrite Eg.
      destruct (as_members m (tb_set_stack (mkFrame (tb_member t) (BStruct []) :: f :: r) t) (tb_member t) [] (f :: r) FB eq_refl) as [m1 E].
      rewrite replay_app, E. cbn [replay tb_step]. unfold tb_close. cbn [with_stack tb_stack f_key f_body body_value app].
      cbn [settled] in FA. rewrite FA. exists m1. reflexivity.
    - apply wfu_array in W. destruct W as (_ & FW).
      assert (FB : Forall builds_as l).
      { rewrite Forall_forall in *. intros x HI. auto. }
      intros t f r f' ST FA. cbn [events replay tb_step]. unfold tb_open. rewrite ST.
      destruct (frame_add_any _ _ (body_value (BArr [])) _ _ FA) as [g Eg]. rewrite Eg.
      destruct (as_items l (tb_set_stack (mkFrame (tb_member t) (BArr []) :: f :: r) t) (tb_member t) [] (f :: r) FB eq_refl) as [m1 E].
      rewrite replay_app, E. cbn [replay tb_step]. unfold tb_close. cbn [with_stack tb_stack f_key f_body body_value app].
      cbn [settled] in FA. rewrite FA. exists m1. reflexivity.
    - exact (IHv W).
  Qed.

  Lemma call_received : forall req name ps, modern ver -> name_ok name -> Forall (wfu ver) ps -> accepts req T_METHOD_CALL ->
    exists wire, sent ver (call_calls name ps) = Ok wire /\
    forall pieces, concat pieces = wire -> received_call val req pieces = Ok (name, VArray (map rb ps)).
  Proof.
    intros req name ps HM LN W HA. assert (HL := modern_legal ver HM).
    assert (FB : Forall builds_as ps) by (rewrite Forall_forall in *; intros x H; apply as_all; auto).
    destruct (as_items ps (fst (tb_step val tb_init (EMethodCall name))) [] [] [] FB eq_refl) as [m ER].
    destruct (call_decodes_any tb (tb_step val) req ver HL HM name ps tb_init _ _ [] LN W HA eq_refl ER) as [Q1 Q2].
    unfold sent. destruct (bin_run ver (call_calls name ps)) as [o f]. cbn [fst snd] in *. subst f.
    exists o. split; [reflexivity|]. intros pieces EC.
    unfold received_call, received.
    erewrite all_of_lbig; [|exact EC| |exact Q2]; [reflexivity|apply idle_cinv; lia].
  Qed.

  Lemma as_root : forall v t, wfu ver v -> tb_stack t = [] -> tb_under t = [] -> tb_first t = true ->
    exists m, replay tstep t (events v) = (mkTB [] (RDone (rb v)) false m (tb_method t) (tb_errnum t) (tb_errmsg t) [], None).
  Proof.
    induction v using value_nested_ind; intros t W ST UN FI; 
      try (exists (tb_member t); cbn [events replay tb_step]; unfold tb_value; rewrite ST, UN, FI; reflexivity).
    - apply wfu_struct in W. destruct W as (_ & FW).
      assert (FB : Forall (fun kv => blen (fst kv) <= 255 /\ builds_as (snd kv)) m).
      { rewrite Forall_forall in *. intros kv HI. destruct (FW kv HI) as [A C]. split; [lia|]. apply as_all; auto. }
      rewrite events_struct. cbn [replay tb_step]. unfold tb_open. rewrite ST, FI.
      destruct (as_members m (mkTB [mkFrame (tb_member t) (BStruct [])] RBottom false (tb_member t) (tb_method t) (tb_errnum t) (tb_errmsg t) (tb_under t)) (tb_member t) [] [] FB eq_refl) as [m1 E].
      rewrite replay_app, E. cbn [replay tb_step]. unfold tb_close. cbn [with_stack tb_stack tb_under tb_root f_key f_body body_value app].
      rewrite UN. exists m1. reflexivity.
    - apply wfu_array in W. destruct W as (_ & FW).
      assert (FB : Forall builds_as l) by (rewrite Forall_forall in *; intros x HI; apply as_all; auto).
      cbn [events replay tb_step]. unfold tb_open. rewrite ST, FI.
      destruct (as_items l (mkTB [mkFrame (tb_member t) (BArr [])] RBottom false (tb_member t) (tb_method t) (tb_errnum t) (tb_errmsg t) (tb_under t)) (tb_member t) [] [] FB eq_refl) as [m1 E].
      rewrite replay_app, E. cbn [replay tb_step]. unfold tb_close. cbn [with_stack tb_stack tb_under tb_root f_key f_body body_value app].
      rewrite UN. exists m1. reflexivity.
    - exact (IHv t W ST UN FI).
  Qed.

  Lemma response_received : forall req v, modern ver -> wfu ver v -> accepts req T_METHOD_RESPONSE ->
    exists wire, sent ver (response_calls v) = Ok wire /\
    forall pieces, concat pieces = wire -> received_value val req pieces = Ok (rb v).
  Proof.
    intros req v HM W HA. assert (HL := modern_legal ver HM).
    destruct (as_root v tb_init W eq_refl eq_refl eq_refl) as [m ER].
    destruct (response_decodes_any tb (tb_step val) req ver HL HM v tb_init tb_init _ [] W HA eq_refl ER) as [Q1 Q2].
    unfold sent. destruct (bin_run ver (response_calls v)) as [o f]. cbn [fst snd] in *. subst f.
    exists o. split; [reflexivity|]. intros pieces EC.
    unfold received_value, received.
    erewrite all_of_lbig; [|exact EC| |exact Q2]; [reflexivity|apply idle_cinv; lia].
  Qed.
End Build.

(** Names that differ: the same members in another order. *)
Lemma map_set_new : forall A k (x : A) m, ~ In k (map fst m) -> Permutation (map_set k x m) ((k, x) :: m).
Proof.
  induction m as [|[k' y] m IH]; intro N; cbn [map_set]; [apply Permutation_refl|].
  destruct (bytes_cmp k k') eqn:E.
  - apply L_Base.bytes_cmp_eq in E. exfalso. apply N. left. cbn. congruence.
  - apply Permutation_refl.
  - rewrite IH by (intro; apply N; right; auto). apply perm_swap.
Qed.
Lemma set_all_perm : forall A (l m : list (bytes * A)), NoDup (map fst (l ++ m)) -> Permutation (set_all m l) (l ++ m).
Proof.
  induction l as [|[k x] l IH]; intros m N; cbn [set_all fold_left]; [apply Permutation_refl|]. change (fold_left _ l ?z) with (set_all z l).
  cbn [fst snd app map] in *. inversion N; subst.
  assert (P : Permutation (map_set k x m) ((k, x) :: m)).
  { apply map_set_new. intro I. apply H1. rewrite map_app. apply in_or_app. auto. }
  rewrite IH.
  - rewrite P. symmetry. apply Permutation_middle.
  - rewrite P. apply (Permutation_NoDup (l := k :: map fst (l ++ m))); [|auto].
    apply (Permutation_map fst) with (l := (k, x) :: l ++ m). apply Permutation_middle.
Qed.

(** ** Induction on JavaScript values *)
Section js_ind.
  Variable P : js -> Prop.
  Hypothesis HNull : P JNull.
  Hypothesis HBool : forall b, P (JBool b).
  Hypothesis HNum : forall z, P (JNum z).
  Hypothesis HFloat : forall d, P (JFloat d).
  Hypothesis HStr : forall s, P (JStr s).
  Hypothesis HBytes : forall s, P (JBytes s).
  Hypothesis HDate : forall ms, P (JDate ms).
  Hypothesis HArr : forall l, Forall P l -> P (JArr l).
  Hypothesis HObj : forall m, Forall (fun kv => P (snd kv)) m -> P (JObj m).
  Fixpoint js_nested_ind (j : js) : P j :=
    match j with
    | JNull => HNull
    | JBool b => HBool b
    | JNum z => HNum z
    | JFloat d => HFloat d
    | JStr s => HStr s
    | JBytes s => HBytes s
    | JDate ms => HDate ms
    | JArr l => HArr l ((fix go (l : list js) : Forall P l := match l with [] => Forall_nil _ | x :: r => Forall_cons x (js_nested_ind x) (go r) end) l)
    | JObj m =>
        HObj m ((fix go (l : list (jstring * js)) : Forall (fun kv => P (snd kv)) l :=
                   match l with [] => Forall_nil _ | (k, x) :: r => Forall_cons (k, x) (js_nested_ind x) (go r) end) m)
    end.
End js_ind.

(** ** Numbers *)
Lemma encode_from_le : forall k fuel n, (k <= fuel)%nat -> 0 < n < 256 ^ Z.of_nat k -> 256 ^ (Z.of_nat k - 1) <= n ->
  encode_from fuel n = le_bytes k n.
Proof.
  induction k as [|k IH]; intros fuel n LF N G.
  - change (256 ^ Z.of_nat 0) with 1 in N. lia.
  - destruct fuel as [|fuel]; [lia|]. cbn [encode_from le_bytes]. destruct (Z.eqb_spec n 0); [lia|]. f_equal.
    replace ((n - n mod 256) / 256) with (n / 256) by lia.
    destruct k as [|k].
    + cbn [le_bytes]. assert (n / 256 = 0) by (change (256 ^ Z.of_nat 1) with 256 in N; lia). rewrite H. destruct fuel; reflexivity.
    + replace (Z.of_nat (S (S k))) with (Z.of_nat (S k) + 1) in N by lia. rewrite Z.pow_add_r in N by lia.
      replace (Z.of_nat (S (S k)) - 1) with (Z.of_nat (S k) - 1 + 1) in G by lia. rewrite Z.pow_add_r in G by lia.
      pose proof (Z.pow_pos_nonneg 256 (Z.of_nat (S k) - 1) ltac:(lia) ltac:(lia)). change (256 ^ 1) with 256 in *.
      apply IH; [lia| |]; set (P := 256 ^ (Z.of_nat (S k) - 1)) in *; set (Q := 256 ^ Z.of_nat (S k)) in *; lia.
Qed.

Lemma encode_int_le : forall n t, 0 <= n < 2 ^ (8 * (t + 1)) -> 0 <= t -> (forall j, 1 <= j < t + 1 -> 2 ^ (8 * j) <= n) ->
  encode_int n = le_bytes (Z.to_nat (t + 1)) n.
Proof.
  intros n t N T M. unfold encode_int. assert (P8 : forall k, 0 <= k -> 2 ^ (8 * k) = 256 ^ k) by (intros; rewrite Z.pow_mul_r by lia; reflexivity).
  destruct (Z.eqb_spec n 0) as [->|NZ].
  - destruct (Z.eq_dec t 0) as [->|]; [reflexivity|]. specialize (M 1 ltac:(lia)). lia.
  - assert (G : 256 ^ t <= n).
    { destruct (Z.eq_dec t 0) as [->|]; [change (256 ^ 0) with 1; lia|]. rewrite <- P8 by lia. apply M. lia. }
    apply encode_from_le; rewrite ?Z2Nat.id by lia.
    + assert (8 * t <= Z.log2 n) by (apply Z.log2_le_pow2; [lia|]; rewrite P8 by lia; exact G). lia.
    + rewrite <- P8 by lia. lia.
    + replace (t + 1 - 1) with t by lia. exact G.
Qed.

Lemma first_byte_type : forall t p i, 0 <= t < 32 -> 0 <= i < 8 -> zlen p = i + 1 -> first_byte t p = data_type t i.
Proof.
  intros t p i T I L. destruct (tag_type t i T I) as [A B]. unfold first_byte. rewrite blen_zlen, L.
  rewrite <- (z2b_b2z (data_type t i)). f_equal. lia.
Qed.

Lemma pack_num_js : forall v t n, 2 <= v_major v -> 0 <= t < 32 -> 0 <= n < 2 ^ 63 ->
  pack_num v t n n = first_byte t (encode_int n) :: encode_int n.
Proof.
  intros v t n V T N. pose proof (number_type_range v n V) as R.
  assert (I64 : in_s64 n) by (unfold in_s64; lia). pose proof (number_type_spec v n V I64) as (S1 & _ & S3).
  unfold pack_num. cbv zeta. set (i := get_number_type v n) in *.
  assert (ES : get_number_size v i = i + 1) by (unfold get_number_size; destruct (Z.ltb_spec (v_major v) 2); [lia|reflexivity]).
  assert (EE : encode_int n = le_bytes (Z.to_nat (i + 1)) n).
  { apply encode_int_le; [split; [lia|apply S1; lia]|lia|]. intros j J. apply S3; lia. }
  rewrite ES, u64_id, <- EE by (unfold in_u64; lia). f_equal. symmetry. apply first_byte_type; [lia|lia|].
  rewrite EE, zlen_le_bytes. lia.
Qed.

Lemma le_bytes_pad : forall j d n, 0 <= n < 256 ^ Z.of_nat j -> le_bytes (j + d) n = le_bytes j n ++ repeat x00 d.
Proof.
  induction j as [|j IH]; intros d n N; cbn [le_bytes app plus].
  - change (256 ^ Z.of_nat 0) with 1 in N. assert (n = 0) by lia. subst. induction d as [|d ID]; [reflexivity|].
    cbn [le_bytes repeat]. change (0 / 256) with 0. rewrite ID. reflexivity.
  - f_equal. apply IH. replace (Z.of_nat (S j)) with (Z.of_nat j + 1) in N by lia. rewrite Z.pow_add_r in N by lia. change (256 ^ 1) with 256 in N.
    set (P := 256 ^ Z.of_nat j) in *. lia.
Qed.
Lemma encode_pad : forall k n, 1 <= k <= 8 -> 0 <= n < 256 ^ k -> n < 2 ^ 63 ->
  encode_int n ++ repeat x00 (Z.to_nat (k - blen (encode_int n))) = le_bytes (Z.to_nat k) n.
Proof.
  intros k n K N N63. set (v := mkVer 3 0). assert (V : 2 <= v_major v) by (cbn; lia). pose proof (number_type_range v n V) as R.
  assert (I64 : in_s64 n) by (unfold in_s64; lia). pose proof (number_type_spec v n V I64) as (S1 & _ & S3).
  set (i := get_number_type v n) in *.
  assert (EE : encode_int n = le_bytes (Z.to_nat (i + 1)) n).
  { apply encode_int_le; [split; [lia|apply S1; lia]|lia|]. intros j J. apply S3; lia. }
  assert (P8 : forall k, 0 <= k -> 2 ^ (8 * k) = 256 ^ k) by (intros; rewrite Z.pow_mul_r by lia; reflexivity).
  assert (LK : i + 1 <= k).
  { destruct (Z_le_gt_dec (i + 1) k) as [|X]; auto. exfalso. specialize (S3 ltac:(lia) k ltac:(lia) ltac:(lia)). rewrite P8 in S3 by lia. lia. }
  rewrite EE, blen_zlen, zlen_le_bytes. rewrite Z2Nat.id by lia. specialize (S1 ltac:(lia)). rewrite P8 in S1 by lia.
  rewrite <- le_bytes_pad by (rewrite Z2Nat.id by lia; lia). f_equal. lia.
Qed.

(** ** Doubles *)
Lemma bits_cons : forall k n, fraction_bits (S k) n 0 = negb (n mod 2 =? 0) :: fraction_bits k (n / 2) 0.
Proof. intros. cbn [fraction_bits]. change (2 ^ (0 + 1)) with 2. reflexivity. Qed.
Lemma bits_app : forall a b n, fraction_bits (a + b) n 0 = fraction_bits a (n mod 2 ^ Z.of_nat a) 0 ++ fraction_bits b (n / 2 ^ Z.of_nat a) 0.
Proof.
  induction a as [|a IH]; intros b n.
  - cbn [plus]. change (2 ^ Z.of_nat 0) with 1. rewrite Z.div_1_r. reflexivity.
  - cbn [plus]. rewrite !bits_cons. cbn [app]. rewrite IH. replace (Z.of_nat (S a)) with (1 + Z.of_nat a) by lia. rewrite Z.pow_add_r by lia. change (2 ^ 1) with 2.
    pose proof (Z.pow_pos_nonneg 2 (Z.of_nat a) ltac:(lia) ltac:(lia)) as PP. set (P := 2 ^ Z.of_nat a) in *.
    rewrite Z.rem_mul_r by lia. rewrite <- Z.div_div by lia. f_equal; [|f_equal; f_equal; lia]. do 2 f_equal. lia.
Qed.
Lemma pack_byte : forall k n, pack_bits (fraction_bits (8 + k) n 0) = z2b n :: pack_bits (fraction_bits k (n / 256) 0).
Proof.
  intros k n. change (8 + k)%nat with (S (S (S (S (S (S (S (S k)))))))). rewrite !bits_cons. cbn [pack_bits]. rewrite !Z.div_div by lia.
  change (2 * 2) with 4. change (4 * 2) with 8. change (8 * 2) with 16. change (16 * 2) with 32. change (32 * 2) with 64. change (64 * 2) with 128. change (128 * 2) with 256.
  f_equal. apply b2z_inj. rewrite !b2z_z2b.
  assert (B : forall x w, 0 <= w -> (if negb (x mod 2 =? 0) then w else 0) = x mod 2 * w).
  { intros x w W. destruct (Z.eqb_spec (x mod 2) 0); cbn [negb]; [lia|]. assert (x mod 2 = 1) by lia. lia. }
  rewrite !B by lia. clear B. rewrite <- (Z.mod_mod n 256) by lia. f_equal. lia.
Qed.
Lemma pack_bytes : forall k n, pack_bits (fraction_bits (8 * k) n 0) = le_bytes k n.
Proof.
  induction k as [|k IH]; intro n; [reflexivity|]. replace (8 * S k)%nat with (8 + 8 * k)%nat by lia. rewrite pack_byte, IH. reflexivity.
Qed.
Lemma double_bits_le : forall e f s, 0 <= e < 2048 -> 0 <= f < 2 ^ 52 ->
  double_bits e f 0 s = le_bytes 8 ((if s then 1 else 0) * 2 ^ 63 + e * 2 ^ 52 + f).
Proof.
  intros e f s E F. unfold double_bits. set (n := (if s then 1 else 0) * 2 ^ 63 + e * 2 ^ 52 + f).
  rewrite <- pack_bytes. change (8 * 8)%nat with (52 + (11 + 1))%nat. rewrite !bits_app.
  change (Z.of_nat 52) with 52. change (Z.of_nat 11) with 11.
  assert (B : n mod 2 ^ 52 = f) by (unfold n; destruct s; lia).
  assert (C : n / 2 ^ 52 mod 2 ^ 11 = e) by (unfold n; destruct s; lia).
  assert (D : n / 2 ^ 52 / 2 ^ 11 = if s then 1 else 0) by (unfold n; destruct s; lia).
  rewrite B, C, D. destruct s; reflexivity.
Qed.

(** ** Values *)
Section Sends.
  Variable log2_of : Z -> Z.
  Variable clock : Z -> shown_date.
  Variable jv : Z.
  Hypothesis HJ : jv = 2 \/ jv = 3.
  Notation ver := (mkVer jv (if jv =? 2 then 1 else 0)).

  Definition nan_sent (d : Z) : Z := if (dbl_exp d =? 2047) && negb (dbl_frac d =? 0) then 2047 * 2 ^ 52 + 1 else d.
  Definition cpp_date (ms : Z) : datetime :=
    let c := clock ms in
    mkDT (sh_year c) (sh_month c + 1) (sh_date c) (sh_hours c) (sh_minutes c) (sh_seconds c) (sh_day c) (ms / 1000) (60 * sh_offset c).
  Fixpoint cpp_of (j : js) : value :=
    match j with
    | JNull | JDate None => VNull
    | JBool b => VBool b
    | JNum z => VInt z
    | JFloat d => VDouble (nan_sent d)
    | JStr s => VString (te_encode s)
    | JBytes s => VBinary s
    | JDate (Some ms) => VDateTime (cpp_date ms)
    | JArr l => VArray (map cpp_of l)
    | JObj m => VStruct (map (fun kv => (te_encode (fst kv), cpp_of (snd kv))) m)
    end.

  Lemma modern_js : modern ver.
  Proof. split; [exact HJ|]. cbn [v_minor]. destruct HJ; subst; cbn; lia. Qed.
  Lemma maj_js : 2 <= v_major ver. Proof. cbn. lia. Qed.

  Lemma double_js : forall d, double_sends log2_of d -> encode_double log2_of d = le_bytes 8 (nan_sent d) /\ in_u64 (nan_sent d).
  Proof.
    intros d [R H]. unfold encode_double, nan_sent. fold (dbl_exp d) (dbl_frac d) in *. cbv zeta.
    assert (E : 0 <= dbl_exp d < 2048) by (unfold dbl_exp; lia). assert (F : 0 <= dbl_frac d < 2 ^ 52) by (unfold dbl_frac; lia).
    assert (ED : d = (if 2 ^ 63 <=? d then 1 else 0) * 2 ^ 63 + dbl_exp d * 2 ^ 52 + dbl_frac d).
    { unfold dbl_exp, dbl_frac. destruct (Z.leb_spec (2 ^ 63) d); lia. }
    destruct (Z.eqb_spec (dbl_exp d) 2047) as [E7|E7].
    - destruct (Z.eqb_spec (dbl_frac d) 0) as [F0|F0]; cbn [andb negb].
      + rewrite double_bits_le by lia. rewrite E7, F0 in ED. split; [f_equal; lia|unfold in_u64; lia].
      + rewrite double_bits_le by lia. split; [reflexivity|unfold in_u64; lia].
    - cbn [andb]. split; [|unfold in_u64; lia]. destruct (Z.eqb_spec (dbl_exp d) 0) as [E0|E0]; cbn [andb].
      + rewrite E0 in ED. destruct (Z.eqb_spec (dbl_frac d) 0) as [F0|F0]; rewrite double_bits_le by lia; f_equal; lia.
      + destruct (H ltac:(lia)) as [L52 LG]. rewrite LG. rewrite Z.min_l by lia.
        destruct (Z.leb_spec 1024 (52 - (dbl_exp d - 1023))); [lia|].
        replace (dbl_exp d - 1075 + (52 - (dbl_exp d - 1023))) with 0 by lia. cbn [Z.leb Z.compare].
        replace (dbl_exp d - 1023 + 1023) with (dbl_exp d) by lia. change (2 ^ 0) with 1.
        rewrite double_bits_le by lia. f_equal. lia.
  Qed.

  Lemma date_js : forall ms, date_sends clock jv ms ->
    serialize_date clock jv ms = fst (bin_pack ver (PDateTime (dt_as_chars (cpp_date ms)))) /\
    snd (bin_pack ver (PDateTime (dt_as_chars (cpp_date ms)))) = None /\ dt_ok (unix_bits ver) (cpp_date ms).
  Proof.
    intros ms (M0 & MR & M2 & (q & Q & EQ) & Y & MO & DA & WD & HO & MI & SE).
    assert (OK : dt_ok (unix_bits ver) (cpp_date ms)).
    { unfold dt_ok, cpp_date, unix_bits. cbn [dt_year dt_month dt_day dt_hour dt_min dt_sec dt_wday dt_unix dt_tz v_major].
      repeat match goal with |- _ /\ _ => split end; try lia.
      - destruct HJ; subst; cbn; lia.
      - exists q. split; [lia|]. rewrite EQ. lia. }
    assert (EC : dt_as_chars (cpp_date ms) = cpp_date ms).
    { unfold dt_as_chars, cpp_date. cbn [dt_year dt_month dt_day dt_hour dt_min dt_sec dt_wday dt_unix dt_tz]. rewrite !s8_id by (unfold in_s8; lia). reflexivity. }
    rewrite EC. cbn [bin_pack]. unfold pack_datetime. cbv zeta.
    unfold cpp_date. cbn [dt_year dt_month dt_day dt_hour dt_min dt_sec dt_wday dt_unix dt_tz].
    unfold serialize_date. cbv zeta. set (c := clock ms) in *.
    assert (TS : round_seconds ms = ms / 1000) by (unfold round_seconds; lia). rewrite TS.
    assert (LD : forall x k, 0 <= k -> 0 <= x < 2 ^ k -> Z.land x (2 ^ k - 1) = x) by (intros; rewrite land_ones_mod by lia; apply Z.mod_small; lia).
    assert (YR : (if sh_year c <=? 1600 then 0 else Z.land (sh_year c - 1600) 2047) = Z.min (Z.max (sh_year c - 1600) 0) 2047).
    { destruct (Z.leb_spec (sh_year c) 1600); [lia|]. change 2047 with (2 ^ 11 - 1) at 1. rewrite LD by lia. lia. }
    rewrite YR.
    assert (W7 : Z.land (sh_day c) 7 = sh_day c) by (apply (LD _ 3); lia). assert (S63 : Z.land (sh_seconds c) 63 = sh_seconds c) by (apply (LD _ 6); lia).
    assert (M63 : Z.land (sh_minutes c) 63 = sh_minutes c) by (apply (LD _ 6); lia). assert (H31 : Z.land (sh_hours c) 31 = sh_hours c) by (apply (LD _ 5); lia).
    assert (D31 : Z.land (sh_date c) 31 = sh_date c) by (apply (LD _ 5); lia). assert (M15 : Z.land (sh_month c + 1) 15 = sh_month c + 1) by (apply (LD _ 4); lia).
    assert (TZ : z2b (Z.quot (Z.quot (60 * sh_offset c) 60) 15) = z2b (if sh_offset c / 15 <? 0 then sh_offset c / 15 + 256 else sh_offset c / 15)).
    { rewrite EQ. replace (60 * (15 * q)) with (15 * q * 60) by lia. rewrite Z.quot_mul by lia. replace (15 * q) with (q * 15) by lia.
      rewrite Z.quot_mul, Z.div_mul by lia. apply b2z_inj. rewrite !b2z_z2b. destruct (Z.ltb_spec q 0); lia. }
    rewrite TZ. set (zb := z2b (if sh_offset c / 15 <? 0 then _ else _)).
    rewrite W7, S63, M63, H31, D31, M15.
    match goal with |- context [dt_tail ?a ?b ?c ?d ?e ?f ?g] => set (tl := dt_tail a b c d e f g) in * end.
    match goal with |- _ :: _ :: _ ++ ?l = _ /\ _ => assert (TL : tl = l) by (unfold tl, dt_tail; rewrite ?W7, ?M63, ?D31, ?M15; reflexivity) end.
    rewrite <- TL.
    assert (T0 : z2b (T_DATETIME * 8) = data_type T_DATETIME 0) by reflexivity. rewrite T0.
    destruct HJ as [J|J].
    - subst jv. cbn [v_major Z.ltb Z.compare Pos.compare Pos.compare_cont Z.eqb Pos.eqb]. specialize (M2 eq_refl).
      destruct (Z.eqb_spec (ms / 1000) (- 2 ^ 63)); [lia|].
      assert (M : Z.land (if 0 <? ms / 1000 then ms / 1000 else - (ms / 1000)) (mask 32) =? 0 = true).
      { apply mask_lt; [lia|]. destruct (Z.ltb_spec 0 (ms / 1000)); lia. }
      rewrite M. rewrite s32_id, u32_id by (unfold in_s32, in_u32; lia). cbn [fst snd]. split; [|split; [reflexivity|exact OK]].
      destruct (Z.ltb_spec (ms / 1000) 0); [lia|]. destruct (Z.leb_spec (2 ^ 31) (ms / 1000)); [lia|]. cbn [orb].
      destruct (Z.ltb_spec (ms / 1000) 0); [lia|]. rewrite (encode_pad 4) by lia. reflexivity.
    - subst jv. cbn [v_major Z.ltb Z.compare Pos.compare Pos.compare_cont Z.eqb Pos.eqb]. rewrite u64_id by (unfold in_u64; lia).
      cbn [fst snd]. split; [|split; [reflexivity|exact OK]].
      destruct (Z.ltb_spec (ms / 1000) 0); [lia|]. rewrite (encode_pad 8) by lia. reflexivity.
  Qed.

  Notation ser := (serialize_value log2_of clock jv).
  Definition sends_as (j : js) : Prop := wfu ver (cpp_of j) /\ bin_run ver (feed (cpp_of j)) = (ser j, None).

  Lemma text_enc : forall lo hi j, text_sends lo hi j -> same_text (te_encode j) j /\ lo <= blen (te_encode j) <= hi.
  Proof. intros lo hi j (s & S & L). rewrite (encode_text _ _ S). auto. Qed.

  Lemma js_all : forall j, js_sends log2_of clock jv j -> sends_as j.
  Proof.
    induction j as [|b|z|d|s|s|ms|l IH|m IH] using js_nested_ind; intro F.
    - split; [cbn; unfold has_null; cbn; destruct HJ; subst; cbn; lia|]. cbn [cpp_of feed]. apply bin_one. cbn [bin_pack v_major v_minor].
      destruct HJ as [->| ->]; reflexivity.
    - split; [exact I|]. destruct b; reflexivity.
    - destruct F as [F1 F2]. split; [cbn [cpp_of wfu wf]; unfold in_s64; lia|]. cbn [cpp_of feed]. apply bin_one. cbn [bin_pack]. f_equal.
      unfold pack_int. cbn [v_major serialize_value]. destruct HJ as [J|J]; subst jv; cbn [Z.ltb Z.compare Pos.compare Pos.compare_cont Z.eqb Pos.eqb].
      + destruct (Z.ltb_spec z 0) as [N|N].
        * assert (EA : safe_abs z = Z.abs z).
          { unfold safe_abs. destruct (Z.ltb_spec z 0); [|lia]. unfold Z.lnot.
            assert (X : u64 (Z.pred (- z)) = - z - 1) by (unfold u64, unsigned; rewrite Z.mod_small; lia). rewrite X.
            replace (- z - 1 + 1) with (Z.abs z) by lia. apply u64_id. unfold in_u64. lia. }
          rewrite EA, s64_id by (unfold in_s64; lia). rewrite pack_num_js by (cbn [v_major]; unfold T_INTN8; lia). destruct (Z.leb_spec 0 z); [lia|]. reflexivity.
        * rewrite pack_num_js by (cbn [v_major]; unfold T_INTP8; lia). rewrite Z.abs_eq by lia. destruct (Z.leb_spec 0 z); [|lia]. reflexivity.
      + specialize (F2 eq_refl). cbv zeta. rewrite zigzag_encode_spec by (unfold in_s64; lia). unfold encode_zigzag.
        destruct (Z.ltb_spec z 0); [lia|]. rewrite s64_id by (unfold in_s64; lia). rewrite pack_num_js by (cbn [v_major]; unfold T_INT; lia). reflexivity.
    - cbn [js_sends] in F. destruct (double_js d F) as [E R]. split; [exact R|]. cbn [cpp_of feed]. apply bin_one. cbn [bin_pack serialize_value]. rewrite E. reflexivity.
    - cbn [js_sends] in F. destruct (text_enc _ _ _ F) as [S L]. split; [cbn; unfold small; lia|]. cbn [cpp_of feed]. apply bin_one. cbn [bin_pack serialize_value].
      unfold pack_string. rewrite pack_num_js by (cbn [v_major]; unfold T_STRING; lia). reflexivity.
    - cbn [js_sends] in F. split; [cbn; unfold small; rewrite blen_zlen in *; pose proof (zlen_nonneg _ s); lia|]. cbn [cpp_of feed]. apply bin_one. cbn [bin_pack serialize_value].
      rewrite pack_num_js by (cbn [v_major]; unfold T_BINARY; rewrite ?blen_zlen in *; pose proof (zlen_nonneg _ s); lia). reflexivity.
    - destruct ms as [ms|]; [|destruct F]. cbn [js_sends] in F. destruct (date_js ms F) as (E & N & OK). split; [exact OK|]. cbn [cpp_of feed].
      apply bin_one. destruct (bin_pack ver (PDateTime (dt_as_chars (cpp_date ms)))) as [o f]. cbn [fst snd] in *. subst f. rewrite <- E. reflexivity.
    - cbn [js_sends] in F. destruct F as [L F].
      assert (FS : Forall sends_as l).
      { clear L. induction l as [|x l IL]; [constructor|]. inversion IH; subst. destruct F. constructor; auto. }
      pose proof (zlen_nonneg _ l).
      split.
      + apply wfu_array. rewrite zlen_map. split; [unfold small; lia|]. apply Forall_map. eapply Forall_impl; [|exact FS]. intros x [A _]. exact A.
      + cbn [cpp_of]. rewrite feed_array. cbn [bin_run bin_pack]. rewrite zlen_map. rewrite u32_id by (unfold in_u32; lia).
        rewrite pack_num_js by (cbn [v_major]; unfold T_ARRAY; lia).
        assert (R : bin_run ver (flat_map feed (map cpp_of l)) = (flat_map ser l, None)).
        { clear - FS. induction FS as [|x l [_ E] _ IL]; [reflexivity|]. cbn [map flat_map]. rewrite bin_run_app, E, IL. reflexivity. }
        rewrite R. cbn [serialize_value]. cbn [app]. reflexivity.
    - cbn [js_sends] in F. destruct F as (L & _ & F).
      assert (FS : Forall (fun kv => text_sends 1 255 (fst kv) /\ sends_as (snd kv)) m).
      { clear L. induction m as [|[k x] m IM]; [constructor|]. inversion IH; subst. destruct F as (A & B & C). constructor; auto. }
      pose proof (zlen_nonneg _ m).
      split.
      + apply wfu_struct. rewrite zlen_map. split; [unfold small; lia|]. apply Forall_map. eapply Forall_impl; [|exact FS].
        intros [k x] [A [B _]]. cbn [fst snd] in *. split; [apply (text_enc _ _ _ A)|exact B].
      + cbn [cpp_of]. rewrite feed_struct. cbn [bin_run bin_pack]. rewrite zlen_map. rewrite u32_id by (unfold in_u32; lia).
        rewrite pack_num_js by (cbn [v_major]; unfold T_STRUCT; lia).
        assert (R : bin_run ver (feed_members (map (fun kv => (te_encode (fst kv), cpp_of (snd kv))) m))
          = (flat_map (fun kv => let k := te_encode (fst kv) in z2b (blen k) :: k ++ ser (snd kv)) m, None)).
        { clear - FS. unfold feed_members. induction FS as [|[k x] m [A [_ E]] _ IM]; [reflexivity|]. cbn [map flat_map fst snd app] in *. cbn [bin_run bin_pack].
          destruct (text_enc _ _ _ A) as [_ LK]. destruct (Z.ltb_spec 255 (blen (te_encode k))); [lia|]. destruct (Z.eqb_spec (blen (te_encode k)) 0); [lia|]. cbn [orb].
          rewrite bin_run_app, E, IM. cbn [app]. rewrite <- app_assoc. reflexivity. }
        rewrite R. cbn [serialize_value]. cbn [app]. reflexivity.
  Qed.

  (** What arrives is the same value. *)
  Lemma settled_same : forall j, js_sends log2_of clock jv j -> same (as_shown clock) (settled (fun d => d) (cpp_of j)) j.
  Proof.
    induction j as [|b|z|d|s|s|ms|l IH|m IH] using js_nested_ind; intro F; cbn [cpp_of settled plain].
    - constructor.
    - constructor.
    - constructor.
    - unfold nan_sent. destruct (Z.eqb_spec (dbl_exp d) 2047) as [E|E]; cbn [andb]; [|constructor].
      destruct (Z.eqb_spec (dbl_frac d) 0) as [E0|E0]; cbn [negb]; [constructor|]. apply same_nan; [vm_compute; split; congruence|split; auto].
    - cbn [js_sends] in F. constructor. apply (text_enc _ _ _ F).
    - constructor.
    - destruct ms as [ms|]; [|destruct F]. cbn [settled plain]. constructor. exists ms. cbn [js_sends] in F. destruct F as (M0 & MR & _).
      unfold cpp_date. cbn [dt_year dt_month dt_day dt_hour dt_min dt_sec dt_wday dt_unix dt_tz]. repeat split. lia.
    - cbn [js_sends] in F. destruct F as [_ F]. constructor. induction l as [|x l IL]; [constructor|]. inversion IH; subst. destruct F. cbn [map]. constructor; auto.
    - cbn [js_sends] in F. destruct F as (_ & ND & F).
      assert (FS : Forall (fun kv => text_sends 1 255 (fst kv) /\ same (as_shown clock) (settled (fun d => d) (cpp_of (snd kv))) (snd kv)) m).
      { clear ND. induction m as [|[k x] m IM]; [constructor|]. inversion IH; subst. destruct F as (A & B & C). constructor; auto. }
      rewrite map_map. cbn [fst snd]. set (l := map (fun kv => (te_encode (fst kv), settled (fun d => d) (cpp_of (snd kv)))) m).
      assert (F2 : Forall2 (fun kv kj => same_text (fst kv) (fst kj) /\ same (as_shown clock) (snd kv) (snd kj)) l m).
      { unfold l. clear - FS. induction FS as [|[k x] m [A B] _ IM]; [constructor|]. cbn [map fst snd] in *. constructor; auto. cbn [fst snd]. split; [apply (text_enc _ _ _ A)|exact B]. }
      assert (NK : NoDup (map fst l)).
      { unfold l. rewrite map_map. cbn [fst]. clear - ND FS. induction FS as [|[k x] m [A _] FF IM]; [constructor|]. cbn [map fst] in *. inversion ND; subst.
        constructor; [|auto]. intro I. apply in_map_iff in I as ([k' x'] & EK & IK). cbn [fst] in EK. apply H1.
        rewrite Forall_forall in FF. destruct (FF _ IK) as [A' _]. cbn [fst] in A'.
        destruct (text_enc _ _ _ A) as [S _]. destruct (text_enc _ _ _ A') as [S' _]. rewrite EK in S'.
        assert (k = k'); [|subst k'; apply in_map_iff; exists (k, x'); auto].
        destruct S as (us & U & E1 & E2). destruct S' as (us' & U' & E1' & E2').
        rewrite E2, E2', <- (run_text us U), <- (run_text us' U'), <- E1, <- E1'. reflexivity. }
      pose proof (set_all_perm _ l [] ltac:(rewrite app_nil_r; exact NK)) as P. rewrite app_nil_r in P.
      destruct (Permutation_Forall2 (Permutation_sym P) F2) as (m' & PM & F2').
      econstructor; [exact F2'|]. symmetry. exact PM.
  Qed.

  Lemma call_js : forall req name params, text_sends 1 255 name -> zlen params < 256 -> Forall (js_sends log2_of clock jv) params -> accepts req T_METHOD_CALL ->
    exists n vs, same_text n name /\ Forall2 (same (as_shown clock)) vs params /\
    forall pieces, concat pieces = serialize_call log2_of clock jv name params -> received_call None req pieces = Ok (n, VArray vs).
  Proof.
    intros req name params NM LP F HA. destruct (text_enc _ _ _ NM) as [S L].
    assert (SA : Forall sends_as params) by (eapply Forall_impl; [|exact F]; apply js_all).
    assert (W : Forall (wfu ver) (map cpp_of params)) by (apply Forall_map; eapply Forall_impl; [|exact SA]; intros x [A _]; exact A).
    destruct (call_received None ver req (te_encode name) (map cpp_of params) modern_js L W HA) as (wire & E & R).
    exists (te_encode name), (map (settled (fun d => d)) (map cpp_of params)). split; [exact S|]. split.
    - clear - F HJ. induction F as [|x l X _ IL]; [constructor|]. cbn [map]. constructor; [apply settled_same; exact X|exact IL].
    - intros pieces EP. rewrite R; [reflexivity|]. rewrite EP.
      unfold sent, call_calls in E. cbn [bin_run bin_pack] in E.
      destruct (Z.ltb_spec 255 (blen (te_encode name))); [lia|]. destruct (Z.eqb_spec (blen (te_encode name)) 0); [lia|]. cbn [orb] in E.
      assert (RN : bin_run ver (flat_map feed (map cpp_of params)) = (flat_map ser params, None)).
      { clear - SA. induction SA as [|x l [_ X] _ IL]; [reflexivity|]. cbn [map flat_map]. rewrite bin_run_app, X, IL. reflexivity. }
      rewrite RN in E. inversion E as [EW]. unfold serialize_call. cbn [serialize_value].
      assert (E1 : exists c, encode_int (zlen params) = [c]).
      { pose proof (zlen_nonneg _ params). exists (z2b (zlen params)).
        change [z2b (zlen params)] with (le_bytes (Z.to_nat (0 + 1)) (zlen params)). apply encode_int_le; [change (2 ^ (8 * (0 + 1))) with 256; lia|lia|intros j J; lia]. }
      destruct E1 as [c E1]. rewrite E1. unfold magic. cbn [v_major v_minor app zdrop]. unfold zdrop. cbn [Z.to_nat Pos.to_nat Pos.iter_op Nat.add skipn].
      reflexivity.
  Qed.
End Sends.
