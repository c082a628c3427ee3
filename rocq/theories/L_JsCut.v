(** Lemmas: what JavaScript makes of the beginning of a message. *)
From Coq Require Import Lia.
From Verif Require Import Base Value Unicode M_Marshal M_BinUnmarshal S_Value S_Wire M_Js S_Js L_Base L_Bits L_RoundTrip L_Js.
Ltac Zify.zify_post_hook ::= Z.div_mod_to_equations.

(** A reader that takes [n] bytes, or throws if there are less. *)
Definition takes {A} (f : bytes -> jres (A * bytes)) (n : Z) : Prop :=
  forall d, (zlen d < n -> f d = JThrow) /\ (n <= zlen d -> exists a, f d = JOk (a, zdrop n d)).

Lemma zdrop_cons : forall n (c : byte) d, 0 < n -> zdrop n (c :: d) = zdrop (n - 1) d.
Proof. intros n c d N. unfold zdrop. replace (Z.to_nat n) with (S (Z.to_nat (n - 1))) by lia. reflexivity. Qed.

Lemma get_int_from_takes : forall n acc f, takes (get_int_from n acc f) (Z.of_nat n).
Proof.
  induction n as [|n IH]; intros acc f d.
  - split; [intro; pose proof (zlen_nonneg _ d); lia|]. intros _. eexists. reflexivity.
  - cbn [get_int_from]. destruct d as [|c d]; [split; [reflexivity|cbn; lia]|]. cbn [get_byte jbind]. rewrite zlen_cons.
    destruct (IH (rnd (acc + f * b2z c)) (f * 256) d) as [A B]. split; intro L.
    + apply A. lia.
    + destruct B as (a & E); [lia|]. exists a. rewrite E, zdrop_cons by lia. do 3 f_equal. lia.
Qed.
Lemma get_int_takes : forall n, 0 <= n -> takes (get_int n) n.
Proof. intros n N. pose proof (get_int_from_takes (Z.to_nat n) 0 1) as X. rewrite Z2Nat.id in X by auto. exact X. Qed.
Lemma get_zigzag_takes : forall n, 0 <= n -> takes (get_zigzag n) n.
Proof.
  intros n N d. unfold get_zigzag. destruct (get_int_takes n N d) as [A B]. split; intro L; [rewrite A by auto; reflexivity|].
  destruct (B L) as (a & E). rewrite E. eexists. reflexivity.
Qed.
Lemma get_bytes_takes : forall n, takes (get_bytes n) n.
Proof. intros n d. unfold get_bytes. rewrite (blen_zlen d). destruct (Z.ltb_spec (zlen d) n); split; intro; try lia; eauto. Qed.
Lemma get_double_takes : takes get_double 8.
Proof. intro d. unfold get_double. rewrite (blen_zlen d). destruct (Z.ltb_spec (zlen d) 8); split; intro; try lia; eauto. Qed.

Lemma takes_full : forall A (f : bytes -> jres (A * bytes)) n w r, takes f n -> zlen w = n -> exists a, f (w ++ r) = JOk (a, r).
Proof.
  intros A f n w r T L. destruct (T (w ++ r)) as [_ B]. destruct B as (a & E); [rewrite zlen_app; pose proof (zlen_nonneg _ r); lia|].
  exists a. rewrite E, zdrop_app' by auto. reflexivity.
Qed.
Lemma takes_cut : forall A (f : bytes -> jres (A * bytes)) n w p q, takes f n -> zlen w = n -> w = p ++ q -> q <> [] -> f p = JThrow.
Proof.
  intros A f n w p q T L E Q. destruct (T p) as [B _]. apply B. subst w. rewrite zlen_app in L. destruct q; [congruence|]. rewrite zlen_cons in L.
  pose proof (zlen_nonneg _ q). lia.
Qed.

Lemma s64_range : forall x, in_s64 (s64 x).
Proof. intro x. unfold in_s64, s64, signed. cbv zeta. destruct (Z.ltb_spec (x mod 2 ^ 64) (2 ^ (64 - 1))); lia. Qed.
Lemma u64_s64 : forall x, u64 (s64 x) = u64 x.
Proof. intro x. unfold u64, s64, unsigned, signed. cbv zeta. destruct (x mod 2 ^ 64 <? 2 ^ (64 - 1)); lia. Qed.

(** Where a cut falls in two pieces. *)
Lemma cut_app : forall (a b p q : bytes), a ++ b = p ++ q ->
  (exists q', a = p ++ q' /\ q' <> []) \/ (exists p', p = a ++ p' /\ b = p' ++ q).
Proof.
  induction a as [|c a IH]; intros b p q E.
  - right. exists p. auto.
  - destruct p as [|c' p].
    + left. exists (c :: a). split; [reflexivity|discriminate].
    + cbn [app] in E. inversion E as [[E1 E2]]. destruct (IH _ _ _ E2) as [(q' & H & Q)|(p' & H & P)].
      * left. exists q'. rewrite H. auto.
      * right. exists p'. rewrite H. auto.
Qed.

Section Cut.
  Variable max_buffer : Z.
  Variable ver : version.
  Hypothesis HV : modern ver.
  Notation wire := (wire ver).
  Notation parse fuel := (parse_value max_buffer fuel (v_major ver)).
  Notation member := (member ver).

  Definition cuts (v : value) : Prop :=
    (exists t i, 0 <= t < 32 /\ 0 <= i < 8 /\ exists b, wire v = data_type t i :: b) /\ snd (bin_run ver (feed v)) = None /\
    (forall fuel r, parse fuel (wire v ++ r) = JThrow \/ exists j, parse fuel (wire v ++ r) = JOk (j, r)) /\
    (forall fuel p q, wire v = p ++ q -> q <> [] -> parse fuel p = JThrow \/ (ends_text v /\ exists j, parse fuel p = JOk (j, []))).

  Lemma parse_nil : forall fuel, parse fuel [] = JThrow.
  Proof. intros [|fuel]; reflexivity. Qed.

  Lemma decode_nil : forall n d, decode_utf8 max_buffer n d = JThrow \/ exists s, decode_utf8 max_buffer n d = JOk (s, zdrop n d).
  Proof. intros n d. unfold decode_utf8. destruct (max_buffer <? n); eauto. Qed.

  (** A value that is a tag and something of a fixed size. *)
  Lemma cuts_fixed : forall v A (f : bytes -> jres (A * bytes)) g t i b,
    0 <= t < 32 -> 0 <= i < 8 -> bin_run ver (feed v) = (data_type t i :: b, None) -> takes f (zlen b) ->
    (forall fuel d, parse (S fuel) (data_type t i :: d) = jbind (f d) (fun '(a, d) => JOk (g a, d))) -> cuts v.
  Proof.
    intros v A f g t i b T I E TK P. unfold cuts, L_Js.wire. rewrite E. cbn [fst snd].
    split; [exists t, i; split; [exact T|]; split; [exact I|]; exists b; reflexivity|]. split; [reflexivity|]. split.
    - intros [|fuel] r; [left; reflexivity|]. right. cbn [app]. rewrite P. destruct (takes_full _ f _ b r TK eq_refl) as (a & ->). cbn [jbind]. eauto.
    - intros [|fuel] p q EQ Q; [left; reflexivity|]. left. destruct p as [|c p]; [reflexivity|]. cbn [app] in EQ. inversion EQ; subst.
      rewrite P. rewrite (takes_cut _ f _ _ p q TK eq_refl eq_refl Q). reflexivity.
  Qed.

  (** A tag, a number of elements or bytes, and something that depends on it. *)
  Lemma cuts_sized : forall v (f : nat -> Z -> bytes -> jres (js * bytes)) t n b,
    0 <= t < 32 -> 0 <= n <= 2 ^ 53 ->
    bin_run ver (feed v) = (pack_num ver t n n ++ b, None) ->
    (forall fuel i d, 0 <= i < 8 -> parse (S fuel) (data_type t i :: d) = jbind (get_int (i + 1) d) (fun '(n, d) => f fuel n d)) ->
    (forall fuel r, f fuel n (b ++ r) = JThrow \/ exists j, f fuel n (b ++ r) = JOk (j, r)) ->
    (forall fuel p q, b = p ++ q -> q <> [] -> f fuel n p = JThrow \/ (ends_text v /\ exists j, f fuel n p = JOk (j, []))) ->
    cuts v.
  Proof.
    intros v f t n b T N E P FF FC. destruct (num_at ver HV t n n N eq_refl) as (i & w & EP & I & L & G). rewrite EP in E.
    unfold cuts, L_Js.wire. rewrite E. cbn [fst snd app].
    split; [exists t, i; split; [exact T|]; split; [exact I|]; eexists; reflexivity|]. split; [reflexivity|]. split.
    - intros [|fuel] r; [left; reflexivity|]. rewrite P by auto. rewrite <- app_assoc, G. cbn [jbind]. apply FF.
    - intros [|fuel] p q EQ Q; [left; reflexivity|]. destruct p as [|c p]; [left; reflexivity|]. cbn [app] in EQ. inversion EQ as [[E1 E2]]. subst c.
      rewrite P by auto. destruct (cut_app _ _ _ _ E2) as [(q' & H & Q')|(p' & H & H')].
      + left. rewrite (takes_cut _ (get_int (i + 1)) _ w p q' (get_int_takes (i + 1) ltac:(lia)) ltac:(lia) H Q'). reflexivity.
      + subst p. rewrite G. cbn [jbind]. apply (FC fuel p' q H' Q).
  Qed.

  Lemma cuts_text : forall s v, small (blen s) -> v = VString s \/ v = VStringView s -> cuts v.
  Proof.
    intros s v S K.
    apply (cuts_sized v (fun _ n d => jbind (decode_utf8 max_buffer n d) (fun '(s, d) => JOk (JStr s, d))) T_STRING (blen s) s).
    - unfold T_STRING. lia.
    - unfold small in S. lia.
    - destruct K as [->| ->]; cbn [feed]; apply bin_one; reflexivity.
    - intros fuel i d I. rewrite parse_tag by (auto; unfold T_STRING; lia). reflexivity.
    - intros fuel r. destruct (decode_nil (blen s) (s ++ r)) as [E|(x & E)]; rewrite E; cbn [jbind]; [auto|]. right.
      rewrite (blen_zlen s), zdrop_app. eauto.
    - intros fuel p q E Q. destruct (decode_nil (blen s) p) as [EE|(x & EE)]; rewrite EE; cbn [jbind]; [auto|]. right. split.
      + assert (s <> []) by (subst s; destruct p; [exact Q|discriminate]). destruct K as [->| ->]; exact H.
      + exists (JStr x). do 2 f_equal. unfold zdrop. apply skipn_all2. subst s. rewrite blen_zlen, zlen_app. unfold zlen. lia.
  Qed.

  Lemma cuts_bytes : forall s v, small (blen s) -> bin_run ver (feed v) = (pack_num ver T_BINARY (blen s) (blen s) ++ s, None) -> cuts v.
  Proof.
    intros s v S E.
    apply (cuts_sized v (fun _ n d => jbind (get_bytes n d) (fun '(s, d) => JOk (JBytes s, d))) T_BINARY (blen s) s); auto.
    - unfold T_BINARY. lia.
    - unfold small in S. lia.
    - intros fuel i d I. rewrite parse_tag by (auto; unfold T_BINARY; lia). reflexivity.
    - intros fuel r. right. destruct (takes_full _ (get_bytes (blen s)) (blen s) s r (get_bytes_takes _) eq_refl) as (a & ->). cbn [jbind]. eauto.
    - intros fuel p q EQ Q. left. rewrite (takes_cut _ (get_bytes (blen s)) (blen s) s p q (get_bytes_takes _) eq_refl EQ Q). reflexivity.
  Qed.

  Lemma cuts_int : forall z, in_s64 z -> cuts (VInt z).
  Proof.
    intros z R. assert (PI : exists t n m, (t = T_INT /\ v_major ver = 3 \/ (t = T_INTP8 \/ t = T_INTN8)) /\ in_s64 n /\ u64 m = u64 n /\ pack_int ver z = pack_num ver t n m).
    { unfold pack_int. destruct HV as [M _]. destruct (Z.ltb_spec 2 (v_major ver)).
      - cbv zeta. do 3 eexists. split; [left; split; [reflexivity|lia]|]. split; [|split; [|reflexivity]].
        + apply s64_range.
        + rewrite u64_s64. reflexivity.
      - destruct (Z.ltb_spec 1 (v_major ver)); [|lia]. destruct (z <? 0).
        + do 3 eexists. split; [right; right; reflexivity|]. split; [apply s64_range|]. split; [|reflexivity]. rewrite u64_s64. reflexivity.
        + do 3 eexists. split; [right; left; reflexivity|]. split; [exact R|]. split; reflexivity. }
    destruct PI as (t & n & m & K & N & U & EP). destruct (pack_num_decode ver t n m (maj2 ver HV) N U) as (i & p & EN & I & L & _).
    assert (E : bin_run ver (feed (VInt z)) = (data_type t i :: p, None)) by (rewrite <- EN, <- EP; cbn [feed]; apply bin_one; reflexivity).
    assert (I8 : 0 <= i < 8) by lia.
    destruct K as [[-> V3]|[->| ->]].
    - apply (cuts_fixed _ _ (get_zigzag (i + 1)) JNum T_INT i p ltac:(unfold T_INT; lia) I8 E); [rewrite L; apply get_zigzag_takes; lia|].
      intros fuel d. rewrite parse_tag by (auto; unfold T_INT; lia). cbn [T_INT T_STRING T_STRUCT T_ARRAY T_BOOL Z.eqb Pos.eqb]. rewrite V3. reflexivity.
    - apply (cuts_fixed _ _ (get_int (i + 1)) JNum T_INTP8 i p ltac:(unfold T_INTP8; lia) I8 E); [rewrite L; apply get_int_takes; lia|].
      intros fuel d. rewrite parse_tag by (auto; unfold T_INTP8; lia). reflexivity.
    - apply (cuts_fixed _ _ (get_int (i + 1)) (fun n => JNum (- n)) T_INTN8 i p ltac:(unfold T_INTN8; lia) I8 E); [rewrite L; apply get_int_takes; lia|].
      intros fuel d. rewrite parse_tag by (auto; unfold T_INTN8; lia). reflexivity.
  Qed.

  Lemma cuts_date : forall d, dt_ok (unix_bits ver) d -> cuts (VDateTime d).
  Proof.
    intros d OK.
    set (k := if v_major ver =? 3 then 8 else 4).
    assert (X : exists b, bin_pack ver (PDateTime (dt_as_chars d)) = (data_type T_DATETIME 0 :: b, None) /\ zlen b = 1 + k + 5).
    { unfold bin_pack, pack_datetime, unix_bits, k in *. cbv zeta. cbn [dt_as_chars dt_unix]. destruct (Z.eqb_spec (v_major ver) 3) as [E|E].
      - rewrite E. cbn [Z.ltb Z.compare Pos.compare Pos.compare_cont]. eexists. split; reflexivity.
      - assert (EM : v_major ver = 2) by (destruct HV; lia). rewrite EM. cbn [Z.ltb Z.compare Pos.compare Pos.compare_cont].
        assert (UB : - 2 ^ (32 - 1) <= dt_unix d < 2 ^ (32 - 1)) by apply OK.
        destruct (Z.eqb_spec (dt_unix d) (- 2 ^ 63)); [lia|].
        assert (M : Z.land (if 0 <? dt_unix d then dt_unix d else - dt_unix d) (mask 32) =? 0 = true).
        { apply mask_lt; [lia|]. destruct (Z.ltb_spec 0 (dt_unix d)); lia. }
        rewrite M. eexists. split; reflexivity. }
    destruct X as (b & E & L).
    apply (cuts_fixed _ _ (fun d => jbind (get_byte d) (fun '(_, d) => jbind (get_int k d) (fun '(ts, d) => jbind (get_bytes 5 d) (fun '(_, d) => JOk (ts, d)))))
             (fun ts => new_date (1000 * ts)) T_DATETIME 0 b); [unfold T_DATETIME; lia|lia|cbn [feed]; apply bin_one; exact E| |].
    - rewrite L. assert (K : 0 <= k) by (unfold k; destruct (v_major ver =? 3); lia). clearbody k. intro e. destruct e as [|c e]; [split; [reflexivity|change (zlen (@nil byte)) with 0; lia]|].
      cbn [get_byte jbind]. rewrite zlen_cons. destruct (get_int_takes k K e) as [A B].
      destruct (Z.ltb_spec (zlen e) k); [rewrite A by auto; split; [reflexivity|lia]|]. destruct (B ltac:(lia)) as (ts & ->). cbn [jbind].
      assert (LD : zlen (zdrop k e) = zlen e - k) by (rewrite zlen_zdrop; lia).
      destruct (get_bytes_takes 5 (zdrop k e)) as [A' B']. split; intro LL; [rewrite A' by lia; reflexivity|].
      destruct B' as (x & ->); [lia|]. cbn [jbind]. exists ts. rewrite zdrop_cons by lia. rewrite zdrop_zdrop by lia. do 3 f_equal. lia.
    - intros fuel e. rewrite parse_tag by (auto; unfold T_DATETIME; lia).
      cbn [T_INT T_STRING T_STRUCT T_ARRAY T_BOOL T_DATETIME T_DOUBLE T_BINARY T_INTP8 T_INTN8 Z.eqb Pos.eqb]. fold k.
      destruct (get_byte e) as [[c e']| |]; cbn [jbind]; [|reflexivity|reflexivity]. destruct (get_int k e') as [[c2 e2]| |]; cbn [jbind]; [|reflexivity|reflexivity].
      destruct (get_bytes 5 e2) as [[c3 e3]| |]; reflexivity.
  Qed.

  Lemma items_full : forall l, Forall cuts l -> forall fuel k r,
    items_at (parse fuel) k (zlen l) (flat_map wire l ++ r) = JThrow \/ exists js, items_at (parse fuel) k (zlen l) (flat_map wire l ++ r) = JOk (js, r).
  Proof.
    induction 1 as [|v l (_ & _ & F & _) _ IH]; intros fuel k r.
    - right. exists []. destruct k; reflexivity.
    - pose proof (zlen_nonneg _ l). destruct k as [|k]; cbn [items_at flat_map]; rewrite zlen_cons; (destruct (Z.eqb_spec (1 + zlen l) 0); [lia|]); [auto|].
      rewrite <- app_assoc. destruct (F fuel (flat_map wire l ++ r)) as [E|(j & E)]; rewrite E; cbn [jbind]; [auto|].
      replace (1 + zlen l - 1) with (zlen l) by lia. destruct (IH fuel k r) as [E'|(js & E')]; rewrite E'; cbn [jbind]; eauto.
  Qed.
  Lemma items_cut : forall l, Forall cuts l -> forall fuel k p q, flat_map wire l = p ++ q -> q <> [] ->
    items_at (parse fuel) k (zlen l) p = JThrow \/ (ends_text (VArray l) /\ exists js, items_at (parse fuel) k (zlen l) p = JOk (js, [])).
  Proof.
    induction 1 as [|v l (_ & _ & F & C) FL IH]; intros fuel k p q E Q.
    - cbn [flat_map] in E. destruct p; [destruct q; [congruence|discriminate]|discriminate].
    - pose proof (zlen_nonneg _ l). destruct k as [|k]; cbn [items_at]; rewrite zlen_cons; (destruct (Z.eqb_spec (1 + zlen l) 0); [lia|]); [auto|].
      cbn [flat_map] in E. replace (1 + zlen l - 1) with (zlen l) by lia. destruct (cut_app _ _ _ _ E) as [(q' & H1 & Q')|(p' & H1 & H2)].
      + destruct (C fuel p q' H1 Q') as [EE|(EN & j & EE)]; rewrite EE; cbn [jbind]; [auto|].
        destruct l as [|x l].
        * right. split; [exact EN|]. destruct k; cbn [items_at zlen List.length Z.of_nat Z.eqb jbind]; eauto.
        * left. rewrite zlen_cons. pose proof (zlen_nonneg _ l). destruct k; cbn [items_at]; (destruct (Z.eqb_spec (1 + zlen l) 0); [lia|]); [reflexivity|].
          rewrite parse_nil. reflexivity.
      + subst p. destruct (F fuel p') as [EE|(j & EE)]; rewrite EE; cbn [jbind]; [auto|].
        destruct (IH fuel k p' q H2 Q) as [E'|(EN & js & E')]; rewrite E'; cbn [jbind]; [auto|]. right. split; [|eauto].
        destruct l as [|x l]; [destruct EN|exact EN].
  Qed.

  Lemma name_int : forall (k : bytes) d, 1 <= blen k <= 255 -> get_int 1 (z2b (blen k) :: d) = JOk (blen k, d).
  Proof.
    intros k d L. pose proof (get_int_at 1 [z2b (blen k)] d eq_refl) as X. cbn [app le_val] in X. rewrite b2z_z2b_small in X by lia.
    rewrite X by lia. do 2 f_equal. lia.
  Qed.

  Lemma members_full : forall m, Forall (fun kv => 1 <= blen (fst kv) <= 255 /\ cuts (snd kv)) m -> forall fuel k acc r,
    members_at max_buffer (parse fuel) k (zlen m) acc (flat_map member m ++ r) = JThrow \/
    exists js, members_at max_buffer (parse fuel) k (zlen m) acc (flat_map member m ++ r) = JOk (js, r).
  Proof.
    induction 1 as [|[name v] m (LN & _ & _ & F & _) _ IH]; intros fuel k acc r.
    - right. exists acc. destruct k; reflexivity.
    - pose proof (zlen_nonneg _ m). destruct k as [|k]; cbn [members_at flat_map]; rewrite zlen_cons; (destruct (Z.eqb_spec (1 + zlen m) 0); [lia|]); [auto|].
      cbn [fst snd] in *. unfold L_Js.member at 1 3. cbn [fst snd app]. rewrite name_int by auto. cbn [jbind]. rewrite <- !app_assoc.
      destruct (decode_nil (blen name) (name ++ wire v ++ flat_map member m ++ r)) as [E|(s & E)]; rewrite E; cbn [jbind]; [auto|].
      rewrite (blen_zlen name), zdrop_app. destruct (F fuel (flat_map member m ++ r)) as [E1|(j & E1)]; rewrite E1; cbn [jbind]; [auto|].
      replace (1 + zlen m - 1) with (zlen m) by lia. apply IH.
  Qed.
  Lemma members_cut : forall m, Forall (fun kv => 1 <= blen (fst kv) <= 255 /\ cuts (snd kv)) m -> forall fuel k acc p q,
    flat_map member m = p ++ q -> q <> [] ->
    members_at max_buffer (parse fuel) k (zlen m) acc p = JThrow \/
    (ends_text (VStruct m) /\ exists js, members_at max_buffer (parse fuel) k (zlen m) acc p = JOk (js, [])).
  Proof.
    induction 1 as [|[name v] m (LN & (t & i & _ & _ & bb & EW) & _ & F & C) FL IH]; intros fuel k acc p q E Q.
    - cbn [flat_map] in E. destruct p; [destruct q; [congruence|discriminate]|discriminate].
    - pose proof (zlen_nonneg _ m). destruct k as [|k]; cbn [members_at]; rewrite zlen_cons; (destruct (Z.eqb_spec (1 + zlen m) 0); [lia|]); [auto|].
      cbn [fst snd] in *. replace (1 + zlen m - 1) with (zlen m) by lia. cbn [flat_map] in E. unfold L_Js.member at 1 in E. cbn [fst snd] in E.
      destruct p as [|c p]; [left; reflexivity|]. cbn [app] in E. inversion E as [[E1 E2]]. subst c. clear E. rewrite name_int by auto. cbn [jbind].
      destruct (decode_nil (blen name) p) as [ED|(s & ED)]; rewrite ED; cbn [jbind]; [auto|]. rewrite <- !app_assoc in E2.
      destruct (cut_app _ _ _ _ E2) as [(q' & H1 & Q')|(p' & H1 & H2)].
      { left. replace (zdrop (blen name) p) with (@nil byte); [rewrite parse_nil; reflexivity|]. symmetry. unfold zdrop. apply skipn_all2.
        rewrite H1, blen_zlen, zlen_app. unfold zlen. lia. }
      subst p. rewrite (blen_zlen name), zdrop_app.
      destruct (cut_app _ _ _ _ H2) as [(q' & H1 & Q')|(p'' & H1 & H3)].
      + destruct (C fuel p' q' H1 Q') as [EE|(EN & j & EE)]; rewrite EE; cbn [jbind]; [auto|].
        destruct m as [|x m].
        * right. split; [exact EN|]. destruct k; cbn [members_at zlen List.length Z.of_nat Z.eqb]; eauto.
        * left. rewrite zlen_cons. pose proof (zlen_nonneg _ m). destruct k; cbn [members_at]; (destruct (Z.eqb_spec (1 + zlen m) 0); [lia|]); reflexivity.
      + subst p'. destruct (F fuel p'') as [EE|(j & EE)]; rewrite EE; cbn [jbind]; [auto|].
        destruct (IH fuel k (obj_set s j acc) p'' q H3 Q) as [E'|(EN & js & E')]; rewrite E'; [auto|]. right. split; [|eauto].
        destruct m as [|x m]; [destruct EN|exact EN].
  Qed.

  Lemma cuts_all : forall v, wf ver v -> cuts v.
  Proof.
    induction v as [z|b| |d|s|s|s|n cs|d|m IH|l IH|v IH] using value_nested_ind; intro W.
    - apply cuts_int; auto.
    - apply (cuts_fixed _ unit (fun d => JOk (tt, d)) (fun _ => JBool b) T_BOOL (if b then 1 else 0) []); try (unfold T_BOOL; destruct b; lia).
      + destruct b; reflexivity.
      + intro d. split; [pose proof (zlen_nonneg _ d); cbn; lia|]. intros _. exists tt. reflexivity.
      + intros fuel d. rewrite parse_tag by (auto; unfold T_BOOL; destruct b; lia). destruct b; reflexivity.
    - cbn [wf] in W.
      assert (E : bin_pack ver PNull = ([data_type T_NULL 0], None)).
      { cbn [bin_pack]. unfold has_null in W. destruct HV as [M _].
        destruct (Z.ltb_spec (v_major ver) 2); [lia|]. destruct (Z.eqb_spec (v_major ver) 2); [|reflexivity].
        destruct (Z.ltb_spec (v_minor ver) 1); [lia|reflexivity]. }
      apply (cuts_fixed _ unit (fun d => JOk (tt, d)) (fun _ => JNull) T_NULL 0 []); try (unfold T_NULL; lia).
      + cbn [feed]. apply bin_one. exact E.
      + intro d. split; [pose proof (zlen_nonneg _ d); cbn; lia|]. intros _. exists tt. reflexivity.
      + intros fuel d. rewrite parse_tag by (auto; unfold T_NULL; lia). reflexivity.
    - apply (cuts_fixed _ js get_double (fun j => j) T_DOUBLE 0 (le_bytes 8 d)); try (unfold T_DOUBLE; lia).
      + cbn [feed]. apply bin_one. reflexivity.
      + rewrite zlen_le_bytes. exact get_double_takes.
      + intros fuel e. rewrite parse_tag by (auto; unfold T_DOUBLE; lia).
        cbn [T_INT T_STRING T_STRUCT T_ARRAY T_BOOL T_DATETIME T_DOUBLE T_BINARY T_INTP8 T_INTN8 Z.eqb Pos.eqb].
        destruct (get_double e) as [[j e']| |]; reflexivity.
    - eapply cuts_text; eauto.
    - eapply cuts_text; eauto.
    - eapply cuts_bytes; [exact W|]. cbn [feed]. apply bin_one. reflexivity.
    - destruct W as [-> W]. eapply cuts_bytes; [exact W|]. cbn [feed]. apply bin_one. reflexivity.
    - apply cuts_date; auto.
    - apply wf_struct in W. destruct W as (SM & _ & W). unfold small in SM.
      assert (FM : Forall (fun kv => 1 <= blen (fst kv) <= 255 /\ cuts (snd kv)) m).
      { rewrite Forall_forall in *. intros kv IN. destruct (W kv IN) as [K1 K2]. split; [exact K1|]. apply IH; auto. }
      apply (cuts_sized _ (fun fuel n d => jbind (members_at max_buffer (parse fuel) (S (List.length d)) n [] d) (fun '(m, d) => JOk (JObj m, d)))
               T_STRUCT (zlen m) (flat_map member m)); try (unfold T_STRUCT; lia).
      + rewrite feed_struct. cbn [bin_run bin_pack]. rewrite u32_id by (unfold in_u32; lia). rewrite run_members; [reflexivity|].
        eapply Forall_impl; [|exact FM]. intros [k x] (A & _ & B & _). auto.
      + intros fuel i e I. rewrite parse_tag by (auto; unfold T_STRUCT; lia). reflexivity.
      + intros fuel r. destruct (members_full m FM fuel (S (List.length (flat_map member m ++ r))) [] r) as [E|(js & E)]; rewrite E; cbn [jbind]; eauto.
      + intros fuel p q E Q. destruct (members_cut m FM fuel (S (List.length p)) [] p q E Q) as [E'|(EN & js & E')]; rewrite E'; cbn [jbind]; eauto.
    - apply wf_array in W. destruct W as (SM & W). unfold small in SM.
      assert (FM : Forall cuts l) by (rewrite Forall_forall in *; intros x IN; apply IH; auto).
      apply (cuts_sized _ (fun fuel n d => jbind (items_at (parse fuel) (S (List.length d)) n d) (fun '(l, d) => JOk (JArr l, d)))
               T_ARRAY (zlen l) (flat_map wire l)); try (unfold T_ARRAY; lia).
      + rewrite feed_array. cbn [bin_run bin_pack]. rewrite u32_id by (unfold in_u32; lia). rewrite run_items; [reflexivity|].
        eapply Forall_impl; [|exact FM]. intros x (_ & A & _). auto.
      + intros fuel i e I. rewrite parse_tag by (auto; unfold T_ARRAY; lia). reflexivity.
      + intros fuel r. destruct (items_full l FM fuel (S (List.length (flat_map wire l ++ r))) r) as [E|(js & E)]; rewrite E; cbn [jbind]; eauto.
      + intros fuel p q E Q. destruct (items_cut l FM fuel (S (List.length p)) p q E Q) as [E'|(EN & js & E')]; rewrite E'; cbn [jbind]; eauto.
    - destruct (IH W) as (A & B & C & D). split; [exact A|]. split; [exact B|]. split; [exact C|exact D].
  Qed.

  Lemma response_wire : forall v, wf ver v -> sent ver (response_calls v) = Ok (magic ver ++ data_type T_METHOD_RESPONSE 0 :: wire v).
  Proof.
    intros v W. destruct (cuts_all v W) as (_ & E & _). unfold sent, response_calls. cbn [bin_run bin_pack]. unfold L_Js.wire.
    destruct (bin_run ver (feed v)) as [o f]. cbn [fst snd] in *. subst f. rewrite <- app_assoc. reflexivity.
  Qed.

  Lemma response_cut : forall v w n, wf ver v -> ~ ends_text v -> sent ver (response_calls v) = Ok w -> 0 <= n < zlen w ->
    js_parse max_buffer (ztake n w) = JThrow.
  Proof.
    intros v w n W NE E N. rewrite response_wire in E by auto. assert (EW : w = magic ver ++ data_type T_METHOD_RESPONSE 0 :: wire v) by congruence. subst w. clear E.
    assert (LM : zlen (magic ver ++ data_type T_METHOD_RESPONSE 0 :: wire v) = 5 + zlen (wire v)) by (rewrite zlen_app, zlen_cons; change (zlen (magic ver)) with 4; lia).
    destruct (Z.ltb_spec n 5) as [L|L].
    - unfold magic. cbn [app]. assert (K : n = 0 \/ n = 1 \/ n = 2 \/ n = 3 \/ n = 4) by lia.
      destruct K as [->|[->|[->|[->| ->]]]]; reflexivity.
    - replace (ztake n (magic ver ++ data_type T_METHOD_RESPONSE 0 :: wire v)) with (magic ver ++ data_type T_METHOD_RESPONSE 0 :: ztake (n - 5) (wire v)).
      2:{ unfold ztake, magic. cbn [app]. replace (Z.to_nat n) with (5 + Z.to_nat (n - 5))%nat by lia. reflexivity. }
      rewrite parse_head by auto. cbn [T_FAULT T_METHOD_RESPONSE Z.eqb Pos.eqb]. unfold parse_one.
      destruct (cuts_all v W) as (_ & _ & _ & C).
      destruct (C (S (List.length (ztake (n - 5) (wire v)))) (ztake (n - 5) (wire v)) (zdrop (n - 5) (wire v))) as [EE|(EN & _)].
      + unfold ztake, zdrop. symmetry. apply firstn_skipn.
      + intro X. apply (f_equal (@zlen byte)) in X. rewrite zlen_zdrop in X; [|rewrite LM in N; lia]. cbn in X. rewrite LM in N. lia.
      + rewrite EE. reflexivity.
      + contradiction.
  Qed.

  Lemma response_trailing : forall v w c r, wf ver v -> sent ver (response_calls v) = Ok w -> js_parse max_buffer (w ++ c :: r) = JThrow.
  Proof.
    intros v w c r W E. rewrite response_wire in E by auto. assert (EW : w = magic ver ++ data_type T_METHOD_RESPONSE 0 :: wire v) by congruence. subst w.
    rewrite <- app_assoc. cbn [app]. rewrite parse_head by auto. cbn [T_FAULT T_METHOD_RESPONSE Z.eqb Pos.eqb]. unfold parse_one.
    destruct (cuts_all v W) as (_ & _ & F & _). destruct (F (S (List.length (wire v ++ c :: r))) (c :: r)) as [EE|(j & EE)]; rewrite EE; reflexivity.
  Qed.
End Cut.
