(** What the binary marshaller accepts, and the size of integers. *)
From Coq Require Import Lia.
From Verif Require Import Base Value M_Marshal M_BinUnmarshal M_TreeBuilder S_Events S_Value S_Wire L_Base L_Bits
  L_BinUnmarshal L_RoundTrip L_TreeBuilder L_Message L_Wire.

Lemma bin_pack_refuses : forall ver c o f, bin_pack ver c = (o, Some f) ->
  o = [] /\
  ((c = PNull /\ ~ at_least 2 1 ver /\ f = Exn (StreamError "Null is not supported by protocol version lower than 2.1"))
   \/ (exists k, (c = PMember k \/ c = PMethodCall k) /\ ~ name_ok k /\ f = Exn LenError)
   \/ (exists d, c = PDateTime d /\ v_major ver < 3 /\ dt_unix d = - 2 ^ 63 /\ f = Undef)).
Proof.
  intros ver c o f H. unfold at_least, name_ok. destruct c; cbn [bin_pack] in H; try (inversion H; fail).
  - destruct (_ || _) eqn:E; inversion H; subst. split; auto. left. split; auto. split; auto.
    apply orb_prop in E. destruct E as [E|E]; [lia|]. apply andb_prop in E. lia.
  - unfold pack_datetime in H. cbv zeta in H. destruct (2 <? v_major ver) eqn:E1; [discriminate|].
    destruct (dt_unix d =? - 2 ^ 63) eqn:E2; inversion H; subst. split; auto. right. right.
    exists d. repeat split; auto; lia.
  - destruct (_ || _) eqn:E; inversion H; subst. split; auto. right. left. exists name. split; auto. split; auto.
    apply orb_prop in E. destruct E as [E|E]; lia.
  - destruct (_ || _) eqn:E; inversion H; subst. split; auto. right. left. exists name. split; auto. split; auto.
    apply orb_prop in E. destruct E as [E|E]; lia.
Qed.

Lemma bin_pack_accepts : forall ver c,
  (snd (bin_pack ver c) = None <->
   match c with
   | PNull => at_least 2 1 ver
   | PMember k | PMethodCall k => name_ok k
   | PDateTime d => v_major ver < 3 -> dt_unix d <> - 2 ^ 63
   | _ => True
   end).
Proof.
  intros ver c. unfold at_least, name_ok. destruct c; cbn [bin_pack]; try (cbn [snd]; tauto).
  - destruct (_ || _) eqn:E; cbn [snd].
    + apply orb_prop in E. destruct E as [E|E]; [|apply andb_prop in E]; (split; [discriminate|lia]).
    + apply orb_false_elim in E. destruct E as [E1 E2]. apply andb_false_iff in E2. split; [intros _; lia|auto].
  - unfold pack_datetime. cbv zeta. destruct (2 <? v_major ver) eqn:E1; [cbn [snd]; split; [intros _ ?; lia|auto]|].
    destruct (dt_unix d =? - 2 ^ 63) eqn:E2; cbn [snd]; split; try discriminate; auto; intros; lia.
  - destruct (_ || _) eqn:E; cbn [snd].
    + split; [discriminate|]. apply orb_prop in E. destruct E; lia.
    + apply orb_false_elim in E. unfold blen in *. split; [intros _; lia|auto].
  - destruct (_ || _) eqn:E; cbn [snd].
    + split; [discriminate|]. apply orb_prop in E. destruct E; lia.
    + apply orb_false_elim in E. unfold blen in *. split; [intros _; lia|auto].
Qed.

Lemma bin_run_none : forall ver cs, snd (bin_run ver cs) = None <-> Forall (fun c => snd (bin_pack ver c) = None) cs.
Proof.
  intros ver. induction cs as [|c cs IH]; cbn [bin_run]; [split; auto|].
  destruct (bin_pack ver c) as [o [f|]] eqn:E.
  - cbn [snd]. split; [discriminate|]. intro H. inversion H; subst. rewrite E in H2. discriminate.
  - destruct (bin_run ver cs) as [o' f'] eqn:ER. cbn [snd] in *. rewrite IH. split; intro H.
    + constructor; auto. rewrite E. reflexivity.
    + inversion H; auto.
Qed.

Lemma sendable_feed : forall ver v, sendable ver v <-> Forall (fun c => snd (bin_pack ver c) = None) (feed v).
Proof.
  intros ver. induction v using value_nested_ind; cbn [sendable feed];
    try (split; [intro H; constructor; [apply bin_pack_accepts; exact H|constructor]|
                 intro H; inversion H; subst; apply bin_pack_accepts in H2; exact H2]).
  - transitivity (Forall (fun c => snd (bin_pack ver c) = None)
      ((fix go (l : list (bytes * value)) : list mcall :=
         match l with [] => [] | (k, x) :: r => PMember k :: feed x ++ go r end) m)).
    + induction m as [|[k x] m IHm]; [split; auto|]. inversion H; subst. specialize (IHm H3).
      cbn [snd] in H2. split.
      * intros (HN & HS & HR). constructor; [apply bin_pack_accepts; exact HN|].
        apply Forall_app. split; [apply H2; exact HS|apply IHm; exact HR].
      * intro HF. inversion HF; subst. apply Forall_app in H5. destruct H5 as [H5 H6].
        apply bin_pack_accepts in H4. split; [exact H4|]. split; [apply H2; exact H5|apply IHm; exact H6].
    + split; intro HF; [constructor; [reflexivity|exact HF]|inversion HF; auto].
  - transitivity (Forall (fun c => snd (bin_pack ver c) = None)
      ((fix go (l : list value) : list mcall :=
         match l with [] => [] | x :: r => feed x ++ go r end) l)).
    + induction l as [|x l IHl]; [split; auto|]. inversion H; subst. specialize (IHl H3). split.
      * intros (HS & HR). apply Forall_app. split; [apply H2; exact HS|apply IHl; exact HR].
      * intro HF. apply Forall_app in HF. destruct HF as [H5 H6]. split; [apply H2; exact H5|apply IHl; exact H6].
    + split; intro HF; [constructor; [reflexivity|exact HF]|inversion HF; auto].
  - exact IHv.
Qed.

Lemma sent_ok : forall ver cs, (exists w, sent ver cs = Ok w) <-> snd (bin_run ver cs) = None.
Proof.
  intros ver cs. unfold sent. destruct (bin_run ver cs) as [o [[e|]|]]; cbn [snd]; split; intro H; try discriminate; eauto;
    destruct H; discriminate.
Qed.

Theorem sendable_spec : forall ver v, (exists w, sent ver (feed v) = Ok w) <-> sendable ver v.
Proof. intros. rewrite sent_ok, bin_run_none. symmetry. apply sendable_feed. Qed.

Theorem sent_error : forall ver cs e, sent ver cs = Err e ->
  e = LenError \/ e = StreamError "Null is not supported by protocol version lower than 2.1".
Proof.
  intros ver cs e H. unfold sent in H. destruct (bin_run ver cs) as [o [[e'|]|]] eqn:E; inversion H; subst. clear H.
  revert o E. induction cs as [|c cs IH]; intros o E; cbn [bin_run] in E; [discriminate|].
  destruct (bin_pack ver c) as [o1 [f|]] eqn:E1.
  - inversion E; subst. apply bin_pack_refuses in E1.
    destruct E1 as [_ [(_ & _ & X)|[(k & _ & _ & X)|(d & _ & _ & _ & X)]]]; inversion X; auto.
  - destruct (bin_run ver cs) as [o2 f2]. inversion E; subst. eauto.
Qed.

(** ** Integers *)

Lemma pow256 : forall k, 0 <= k -> 256 ^ k = 2 ^ (8 * k).
Proof. intros. change 256 with (2 ^ 8). rewrite <- Z.pow_mul_r by lia. reflexivity. Qed.

Lemma num_size : forall ver tag n m, 2 <= v_major ver -> in_u64 n -> s64 n = m -> exists p,
  pack_num ver tag m n = data_type tag (zlen p - 1) :: p /\ 1 <= zlen p <= 8 /\
  n < 256 ^ zlen p /\ (forall k, 0 <= k -> n < 256 ^ k -> zlen p <= Z.max 1 k).
Proof.
  intros ver tag n m H I EM. unfold pack_num. cbv zeta.
  assert (R : in_s64 m) by (subst m; apply (signed_range 64); lia).
  pose proof (number_type_range ver m) as NR. pose proof (number_type_spec ver m H R) as NS. cbv zeta in NS.
  set (t := get_number_type ver m) in *.
  unfold get_number_size. replace (v_major ver <? 2) with false by (symmetry; apply Z.ltb_ge; lia).
  assert (T : 0 <= t <= 7) by (apply NR; auto).
  assert (ZL : zlen (le_bytes (Z.to_nat (t + 1)) (u64 n)) = t + 1) by (rewrite zlen_le_bytes; lia).
  exists (le_bytes (Z.to_nat (t + 1)) (u64 n)). rewrite ZL.
  replace (t + 1 - 1) with t by lia. split; [reflexivity|]. split; [lia|].
  destruct NS as (N1 & N2 & N3). rewrite pow256 by lia.
  unfold in_u64 in I. unfold s64, signed in EM. cbv zeta in EM. rewrite Z.mod_small in EM by lia.
  destruct (n <? 2 ^ (64 - 1)) eqn:E.
  - subst m. split; [apply N1; lia|]. intros k K F. rewrite pow256 in F by lia.
    destruct (Z_le_gt_dec (t + 1) (Z.max 1 k)); auto. exfalso.
    specialize (N3 ltac:(lia) (Z.max 1 k) ltac:(lia) ltac:(lia)).
    assert (2 ^ (8 * k) <= 2 ^ (8 * Z.max 1 k)) by (apply Z.pow_le_mono_r; lia). lia.
  - assert (t + 1 = 8) by (apply N2; lia). replace (t + 1) with 8 by lia. split; [lia|].
    intros k K F. rewrite pow256 in F by lia.
    destruct (Z_le_gt_dec 8 (Z.max 1 k)); auto. exfalso.
    assert (2 ^ (8 * k) <= 2 ^ (8 * 7)) by (apply Z.pow_le_mono_r; lia). lia.
Qed.

Theorem int_minimal : forall ver z, modern ver -> in_s64 z ->
  exists tag payload, sent ver [PInt z] = Ok (tag :: payload) /\ fits ver z (zlen payload) /\
  (forall k, 1 <= k -> fits ver z k -> zlen payload <= k).
Proof.
  intros ver z [HM _] Hz. unfold sent. cbn [bin_run bin_pack app]. rewrite app_nil_r.
  unfold pack_int, fits. unfold in_s64 in Hz. destruct HM as [HM|HM]; rewrite HM; cbn [Z.ltb Z.eqb Z.compare Pos.compare Pos.compare_cont Pos.eqb].
  - destruct (z <? 0) eqn:E.
    + assert (EA : safe_abs z = - z).
      { unfold safe_abs. rewrite E. unfold Z.lnot. unfold u64, unsigned.
        rewrite (Z.mod_small (Z.pred (- z))) by lia. rewrite Z.mod_small by lia. lia. }
      destruct (num_size ver T_INTN8 (safe_abs z) _ ltac:(lia) ltac:(unfold in_u64; lia) eq_refl) as (p & EP & L & F1 & F2).
      rewrite EP, EA in *. do 2 eexists. split; [reflexivity|]. split; [lia|]. intros k K F.
      specialize (F2 k ltac:(lia) ltac:(lia)). lia.
    + destruct (num_size ver T_INTP8 z z ltac:(lia) ltac:(unfold in_u64; lia) ltac:(apply s64_id; unfold in_s64; lia))
        as (p & EP & L & F1 & F2).
      rewrite EP. do 2 eexists. split; [reflexivity|]. split; [lia|]. intros k K F.
      specialize (F2 k ltac:(lia) ltac:(lia)). lia.
  - pose proof (zigzag_encode_spec z Hz) as EZ.
    destruct (num_size ver T_INT (zigzag_encode z) _ ltac:(lia)
      ltac:(unfold in_u64; rewrite EZ; destruct (z <? 0) eqn:E; lia) eq_refl) as (p & EP & L & F1 & F2).
    rewrite EP. rewrite EZ in F1, F2. do 2 eexists. split; [reflexivity|].
    split; [destruct (z <? 0) eqn:E; lia|]. intros k K F.
    specialize (F2 k ltac:(lia)).
    assert (zlen p <= Z.max 1 k) by (apply F2; destruct (z <? 0) eqn:E; lia). lia.
Qed.

(** In protocol 1 the integer is taken modulo 2^32. *)
Theorem int_minimal_old : forall ver z, v_major ver = 1 -> in_s64 z ->
  exists tag payload, sent ver [PInt z] = Ok (tag :: payload) /\ z mod 2 ^ 32 < 256 ^ zlen payload /\
  (forall k, 1 <= k -> z mod 2 ^ 32 < 256 ^ k -> zlen payload <= k).
Proof.
  intros ver z HM Hz. unfold sent. cbn [bin_run bin_pack app]. rewrite app_nil_r. unfold pack_int, pack_num. rewrite HM. cbn [Z.ltb Z.compare Pos.compare Pos.compare_cont].
  do 2 eexists. split; [reflexivity|]. unfold get_number_size. rewrite HM. cbn [Z.ltb Z.compare Pos.compare Pos.compare_cont].
  set (t := get_number_type ver z).
  assert (M: z mod 2 ^ 32 = (s32 z) mod 2 ^ 32).
  { unfold s32, signed. cbv zeta. destruct (z mod 2 ^ 32 <? 2 ^ (32 - 1)); [symmetry; apply Z.mod_small; apply Z.mod_pos_bound; lia|].
    replace (z mod 2 ^ 32 - 2 ^ 32) with (z mod 2 ^ 32 + (-1) * 2 ^ 32) by lia. rewrite Z_mod_plus_full. symmetry. apply Z.mod_small. apply Z.mod_pos_bound. lia. }
  assert (T: 1 <= t <= 4 /\ z mod 2 ^ 32 < 2 ^ (8 * t) /\ (1 < t -> ~ z mod 2 ^ 32 < 2 ^ (8 * (t - 1)))).
  { rewrite M. assert (R: - 2 ^ 31 <= s32 z < 2 ^ 31) by (apply (signed_range 32); lia).
    assert (NEG: s32 z < 0 -> 2 ^ 31 <= s32 z mod 2 ^ 32).
    { intro N. replace (s32 z) with (s32 z + 2 ^ 32 + (-1) * 2 ^ 32) by lia. rewrite Z_mod_plus_full, Z.mod_small by lia. lia. }
    assert (POS: 0 <= s32 z -> s32 z mod 2 ^ 32 = s32 z) by (intro N; apply Z.mod_small; lia). pose proof (Z.mod_pos_bound (s32 z) (2 ^ 32) ltac:(lia)) as B.
    subst t. unfold get_number_type. rewrite HM. cbn [Z.ltb Z.compare Pos.compare Pos.compare_cont]. cbv zeta. revert R NEG POS B. generalize (s32 z). intros o R NEG POS B.
    destruct (Z.land o (mask 8) =? 0) eqn:E1; [apply mask_lt in E1; [|lia]|apply mask_ge in E1; [|lia]]; [cbn; lia|].
    destruct (Z.land o (mask 16) =? 0) eqn:E2; [apply mask_lt in E2; [|lia]|apply mask_ge in E2; [|lia]]; [cbn; lia|].
    destruct (Z.land o (mask 24) =? 0) eqn:E3; [apply mask_lt in E3; [|lia]|apply mask_ge in E3; [|lia]]; cbn; lia. }
  rewrite zlen_le_bytes by lia. rewrite Z2Nat.id by lia. rewrite pow256 by lia. split; [lia|]. intros k K F. rewrite pow256 in F by lia.
  destruct (Z_le_gt_dec t k) as [L|G]; [exact L|]. exfalso. assert (2 ^ (8 * k) <= 2 ^ (8 * (t - 1))) by (apply Z.pow_le_mono_r; lia). lia.
Qed.

(** ** Faults seen by any builder *)
Lemma fault_trace : forall ver req code msg, modern ver -> in_s32 code -> small (blen msg) -> accepts req T_FAULT ->
  exists wire, sent ver [PFault code msg] = Ok wire /\
  forall pieces, concat pieces = wire ->
    exists u, unmarshall_all _ record_step req unm_init [] pieces = (u, [EFault code msg], None)
              /\ unm_finish u = Ok tt.
Proof.
  intros ver req code msg HM HC Sm HA.
  destruct (fault_decodes _ record_step req ver (modern_legal ver HM) HM code msg [] _ [] HC Sm HA eq_refl) as [Q1 Q2].
  unfold sent. destruct (bin_run ver [PFault code msg]) as [o f]. cbn [fst snd] in *. subst f.
  exists o. split; [reflexivity|]. intros pieces EC. eexists.
  erewrite all_of_lbig; [|exact EC| |exact Q2]; [split; reflexivity|apply idle_cinv; lia].
Qed.

Lemma call_trace : forall ver req name ps, modern ver -> name_ok name -> Forall (wf ver) ps -> accepts req T_METHOD_CALL ->
  exists wire, sent ver (call_calls name ps) = Ok wire /\
  forall pieces, concat pieces = wire ->
    exists u, unmarshall_all _ record_step req unm_init [] pieces = (u, EMethodCall name :: flat_map events ps, None)
              /\ unm_finish u = Ok tt.
Proof.
  intros ver req name ps HM HN W HA.
  assert (RR : forall es b, replay record_step b es = (b ++ es, None)).
  { induction es as [|e es IH]; intro b; cbn [replay record_step]; [rewrite app_nil_r; reflexivity|].
    rewrite IH, <- app_assoc. reflexivity. }
  destruct (call_decodes _ record_step req ver (modern_legal ver HM) HM name ps [] _ _ [] HN W HA eq_refl (RR _ _)) as [Q1 Q2].
  unfold sent. destruct (bin_run ver (call_calls name ps)) as [o f]. cbn [fst snd] in *. subst f.
  exists o. split; [reflexivity|]. intros pieces EC. eexists.
  erewrite all_of_lbig; [|exact EC| |exact Q2]; [split; reflexivity|apply idle_cinv; lia].
Qed.
