(** Lemmas about hints. *)
From Coq Require Import Lia.
From Verif Require Import Base Value Text Unicode M_Marshal M_Js M_JsHints S_Js S_JsHints L_Base L_Bits L_JsText L_Text L_JsCall.

Scheme typed_ind2 := Induction for typed Sort Prop
  with typed_items_ind2 := Induction for typed_items Sort Prop
  with typed_members_ind2 := Induction for typed_members Sort Prop.
Combined Scheme typed_mut from typed_ind2, typed_items_ind2, typed_members_ind2.

Lemma join_dotted : forall p, path_join p = dotted p.
Proof. induction p as [|s [|s' r] IH]; [reflexivity|reflexivity|]. cbn [path_join dotted] in *. rewrite IH. reflexivity. Qed.

Lemma dotted_cons : forall s r, r <> [] -> dotted (s :: r) = s ++ 46 :: dotted r.
Proof. intros s [|x r] H; [congruence|reflexivity]. Qed.

Lemma split_first : forall (a b c d : jstring), ~ In 46 a -> ~ In 46 c -> a ++ 46 :: b = c ++ 46 :: d -> a = c /\ b = d.
Proof.
  induction a as [|x a IH]; intros b c d A C E.
  - destruct c as [|y c]; [cbn in E; inversion E; auto|]. cbn in E. inversion E; subst. exfalso. apply C. left. reflexivity.
  - destruct c as [|y c]; cbn in E; inversion E; subst.
    + exfalso. apply A. left. reflexivity.
    + destruct (IH b c d) as [-> ->]; auto; intro X; [apply A|apply C]; right; auto.
Qed.

Lemma dotted_inj : forall a b, Forall plain a -> Forall plain b -> dotted a = dotted b -> a = b.
Proof.
  induction a as [|x a IH]; intros b A B E.
  - destruct b as [|y b]; [reflexivity|]. exfalso. inversion B as [|? ? [N _] _]; subst. destruct b; [cbn in E; congruence|].
    rewrite dotted_cons in E by congruence. cbn in E. symmetry in E. apply app_eq_nil in E. tauto.
  - inversion A as [|? ? [NX DX] A']; subst. destruct b as [|y b].
    + exfalso. destruct a; [cbn in E; congruence|]. rewrite dotted_cons in E by congruence. cbn in E. apply app_eq_nil in E. tauto.
    + inversion B as [|? ? [NY DY] B']; subst. destruct a as [|x' a], b as [|y' b].
      * cbn in E. congruence.
      * rewrite (dotted_cons y) in E by congruence. cbn [dotted] in E. exfalso. apply DX. rewrite E. apply in_or_app. right. left. reflexivity.
      * rewrite (dotted_cons x) in E by congruence. cbn [dotted] in E. exfalso. apply DY. rewrite <- E. apply in_or_app. right. left. reflexivity.
      * rewrite (dotted_cons x), (dotted_cons y) in E by congruence. destruct (split_first _ _ _ _ DX DY E) as [-> E']. f_equal. apply IH; auto.
Qed.

Lemma jeqb_refl : forall a, jstring_eqb a a = true. Proof. intro. apply jstring_eqb_eq. reflexivity. Qed.

Lemma member_written : forall m p, NoDup (map fst m) -> Forall (fun e => Forall plain (fst e)) m -> Forall plain p ->
  forall k, member (dotted p) (map (fun e => (dotted (fst e), kind_text (snd e))) m) = Some (kind_text k) <-> In (p, k) m.
Proof.
  intros m p ND PL PP k. induction m as [|[q j] m IH]; [cbn; split; [discriminate|tauto]|].
  inversion ND as [|? ? NI ND']; subst. inversion PL as [|? ? PQ PL']; subst. cbn [map fst snd member].
  destruct (jstring_eqb (dotted p) (dotted q)) eqn:E.
  - apply jstring_eqb_eq in E. apply dotted_inj in E; auto. subst q. split.
    + intro X. left. assert (j = k) by (destruct j, k; [reflexivity| | |reflexivity]; vm_compute in X; discriminate). congruence.
    + intros [X|X]; [congruence|]. exfalso. apply NI. apply (in_map fst) in X. exact X.
  - rewrite (IH ND' PL'). split; [right; auto|]. intros [X|X]; [|exact X]. inversion X; subst. rewrite jeqb_refl in E. discriminate.
Qed.

Lemma member_kind : forall m p x, member p (map (fun e : position * kind => (dotted (fst e), kind_text (snd e))) m) = Some x -> exists k, x = kind_text k.
Proof.
  induction m as [|[q j] m IH]; intros p x; cbn [map member fst snd]; [discriminate|]. destruct (jstring_eqb p (dotted q)); [|apply IH].
  intro E. inversion E. eauto.
Qed.

(** What the code finds is what is meant. *)
Lemma hint_spec : forall h F B p, gives h F B -> Forall plain p ->
  (hint_is "float" h p = true <-> F p) /\ (hint_is "binary" h p = true <-> B p).
Proof.
  intros h F B p G PP. destruct G as [| |m ND PL].
  - cbn. split; split; (discriminate || tauto).
  - split; split; intro X; (exact I || reflexivity || (vm_compute in X; discriminate) || destruct X).
  - unfold hint_is, written, get_hint. rewrite join_dotted.
    pose proof (member_written m p ND PL PP K_float) as MF. pose proof (member_written m p ND PL PP K_binary) as MB.
    rewrite <- MF, <- MB. destruct (member (dotted p) _) as [x|] eqn:E; [|split; split; discriminate].
    change (jtext "float") with (kind_text K_float). change (jtext "binary") with (kind_text K_binary).
    rewrite !jstring_eqb_eq. split; split; intro X; congruence.
Qed.

(** ** Keys *)
Lemma index_plain : forall i, 0 <= i -> plain (key_of_index i).
Proof.
  intros i R. destruct (dec_spec i R) as (NE & D & _). unfold key_of_index. split.
  - intro E. apply map_eq_nil in E. exact (NE E).
  - intro X. apply in_map_iff in X. destruct X as (b & E & I). rewrite Forall_forall in D. apply D in I.
    unfold is_digit in I. apply Bool.andb_true_iff in I. lia.
Qed.

(** ** Numbers *)
Lemma unit_pos : 0 < unit. Proof. apply Z.pow_pos_nonneg; lia. Qed.
Opaque unit.

Lemma encode_units_int : forall z, 0 <= z < 2 ^ 1024 -> encode_units (z * unit) = encode_int z.
Proof.
  intros z R. unfold encode_units. pose proof unit_pos as U. destruct (Z.leb_spec (2 ^ 1024 * unit) (z * unit)) as [C|C].
  - exfalso. assert (z * unit < 2 ^ 1024 * unit) by (apply Z.mul_lt_mono_pos_r; lia). lia.
  - rewrite Z.div_mul by lia. reflexivity.
Qed.

Section Ser.
  Variable log2_of : Z -> Z.
  Variable clock : Z -> shown_date.
  Variable ver : Z.
  Notation ser := (serialize_value log2_of clock ver).

  Lemma big : 2 ^ 54 < 2 ^ 1024. Proof. apply Z.pow_lt_mono_r; lia. Qed.

  Lemma serialize_int_spec : forall bits z, integer bits z -> Z.abs z <= 2 ^ 53 -> (ver = 3 -> 0 <= z) -> serialize_int ver bits = ser (JNum z).
  Proof.
    intros bits z (s & u & N & E & S1 & S2) A V. unfold serialize_int. rewrite N. cbn [serialize_value].
    pose proof unit_pos as U. pose proof big as BG. change (2 ^ 1074) with unit in E.
    destruct (Z.eqb_spec ver 3) as [V3|V3].
    - specialize (V V3). assert (u = z * unit) by (rewrite <- E, Z.abs_eq by lia; reflexivity).
      assert (NG : s && negb (u =? 0) = false).
      { destruct s; [|reflexivity]. specialize (S1 eq_refl). assert (z = 0) by lia. replace u with 0 by (subst z; lia). reflexivity. }
      rewrite NG. replace (2 * u) with ((2 * z) * unit) by lia. rewrite encode_units_int by lia. unfold encode_zigzag.
      destruct (Z.ltb_spec z 0); [lia|]. reflexivity.
    - assert (EU : encode_units u = encode_int (Z.abs z)) by (rewrite <- E; apply encode_units_int; lia). rewrite EU. f_equal. f_equal.
      destruct s; cbn [negb orb].
      + specialize (S1 eq_refl). destruct (Z.eqb_spec u 0) as [U0|U0].
        * assert (z = 0) by nia. subst z. reflexivity.
        * destruct (Z.leb_spec 0 z); [|reflexivity]. exfalso. apply U0. replace z with 0 in E by lia. lia.
      + specialize (S2 eq_refl). destruct (Z.leb_spec 0 z); [reflexivity|lia].
  Qed.

  Lemma byte_array_spec : forall l s, byte_array l s -> map raw_byte l = s /\ zlen l = zlen s.
  Proof.
    intros l s F. induction F as [|v b l s (bits & -> & (sg & u & N & E & S1 & S2)) F [IH1 IH2]]; [split; reflexivity|].
    cbn [map raw_byte]. rewrite N, IH1. pose proof (b2z_range b) as R. pose proof unit_pos as U. change (2 ^ 1074) with unit in E.
    split; [|rewrite !zlen_cons; lia]. f_equal. rewrite Z.abs_eq in E by lia. rewrite <- E, Z.div_mul by lia.
    destruct sg; [|apply z2b_b2z]. specialize (S1 eq_refl). replace (- b2z b) with (b2z b) by lia. apply z2b_b2z.
  Qed.

  Variable h : hints.
  Variables F B : position -> Prop.
  Hypothesis G : gives h F B.

  Definition items_of := (fix items (path : list jstring) (i : Z) (l : list raw) : jres bytes :=
                    match l with
                    | [] => JOk []
                    | x :: r => jbind (serialize_raw log2_of clock h ver (path ++ [index_text i]) x) (fun a => jbind (items path (i + 1) r) (fun b => JOk (a ++ b)))
                    end).
  Definition members_of := (fix members (path : list jstring) (m : list (jstring * raw)) : jres bytes :=
                    match m with
                    | [] => JOk []
                    | (k, x) :: r =>
                        jbind (serialize_raw log2_of clock h ver (path ++ [k]) x) (fun a =>
                        jbind (members path r) (fun b => let t := te_encode k in JOk (z2b (blen t) :: t ++ a ++ b)))
                    end).

  Lemma ser_arr : forall path l, serialize_raw log2_of clock h ver path (RArr l) =
    if hint_is "binary" h path then JOk (serialize_binary l)
    else jbind (items_of path 0 l) (fun data => JOk (first_byte T_ARRAY (encode_int (zlen l)) :: encode_int (zlen l) ++ data)).
  Proof.
    intros. cbn [serialize_raw]. destruct (hint_is "binary" h path); [reflexivity|]. cbv zeta. f_equal. generalize 0.
    induction l as [|x l IH]; intro i; [reflexivity|]. cbn [items_of]. rewrite IH. reflexivity.
  Qed.

  Lemma ser_obj : forall path m, serialize_raw log2_of clock h ver path (RObj m) =
    if wrapped "binary" m then match member (jtext "value") m with Some (RArr l) => JOk (serialize_binary l) | _ => JThrow end
    else if wrapped "float" m then match member (jtext "value") m with Some (RNum bits) => JOk (ser (JFloat bits)) | _ => JThrow end
    else jbind (members_of path m) (fun data => JOk (first_byte T_STRUCT (encode_int (zlen m)) :: encode_int (zlen m) ++ data)).
  Proof.
    intros. cbn [serialize_raw]. destruct (wrapped "binary" m); [reflexivity|]. destruct (wrapped "float" m); [reflexivity|]. cbv zeta. f_equal.
    induction m as [|[k x] m IH]; [reflexivity|]. cbn [members_of]. rewrite IH. reflexivity.
  Qed.

  Lemma member_in : forall A k (m : list (jstring * A)) x, member k m = Some x -> In (k, x) m.
  Proof.
    induction m as [|[q y] m IH]; cbn [member]; intros x E; [discriminate|]. destruct (jstring_eqb k q) eqn:Q.
    - apply jstring_eqb_eq in Q. inversion E; subst. left. reflexivity.
    - right. apply IH. exact E.
  Qed.

  Lemma not_wrapped : forall o, (forall k, ~ In (jtext "_hint", RStr (kind_text k)) o) -> wrapped "binary" o = false /\ wrapped "float" o = false.
  Proof.
    intros o N. unfold wrapped. destruct (member (jtext "_hint") o) as [x|] eqn:E; [|auto]. apply member_in in E.
    destruct x; auto. destruct (jstring_eqb s (jtext "binary")) eqn:E1.
    - apply jstring_eqb_eq in E1. subst s. exfalso. exact (N K_binary E).
    - destruct (jstring_eqb s (jtext "float")) eqn:E2; [|auto]. apply jstring_eqb_eq in E2. subst s. exfalso. exact (N K_float E).
  Qed.

  Lemma serialize_typed :
    (forall p v j, typed F B p v j -> Forall plain p -> js_sends log2_of clock ver j -> serialize_raw log2_of clock h ver p v = JOk (ser j)) /\
    (forall p i l l', typed_items F B p i l l' -> 0 <= i -> Forall plain p -> Forall (js_sends log2_of clock ver) l' ->
       items_of p i l = JOk (flat_map ser l') /\ zlen l = zlen l') /\
    (forall p o o', typed_members F B p o o' -> Forall plain p -> Forall plain (map fst o) -> Forall (fun kv => js_sends log2_of clock ver (snd kv)) o' ->
       members_of p o = JOk (flat_map (fun kv => let k := te_encode (fst kv) in z2b (blen k) :: k ++ ser (snd kv)) o') /\ zlen o = zlen o').
  Proof.
    apply typed_mut; intros; try reflexivity.
    - cbn [serialize_raw]. destruct (hint_spec h F B p G) as [HF _]; [assumption|]. rewrite (proj2 HF) by assumption. reflexivity.
    - cbn [serialize_raw]. destruct (hint_spec h F B p G) as [HF _]; [assumption|]. destruct (hint_is "float" h p); [exfalso; apply n; apply HF; reflexivity|].
      f_equal. destruct H0 as [H1 H2]. apply serialize_int_spec; assumption.
    - rewrite ser_arr. destruct (hint_spec h F B p G) as [_ HB]; [assumption|]. rewrite (proj2 HB) by assumption.
      match goal with BA : byte_array _ _ |- _ => destruct (byte_array_spec _ _ BA) as [E1 E2] end. unfold serialize_binary. rewrite E1, E2. reflexivity.
    - rewrite ser_arr. destruct (hint_spec h F B p G) as [_ HB]; [assumption|]. destruct (hint_is "binary" h p); [exfalso; apply n; apply HB; reflexivity|].
      destruct H1 as [_ H2]. destruct H as [E1 E2]; [lia|assumption| |rewrite E1, E2; reflexivity].
      clear - H2. induction l' as [|x r IH]; constructor; [apply H2|apply IH, H2].
    - rewrite ser_obj. change (wrapped "binary" _) with true. change (member (jtext "value") _) with (Some (RArr l)).
      destruct (byte_array_spec _ _ b) as [E1 E2]. unfold serialize_binary. cbv iota. rewrite E1, E2. reflexivity.
    - rewrite ser_obj. destruct (not_wrapped o n) as [-> ->]. destruct H1 as (_ & _ & H1). destruct H as [E1 E2]; [assumption|assumption| |rewrite E1, E2; reflexivity].
      clear - H1. induction o' as [|[k x] r IH]; constructor; [apply H1|apply IH, H1].
    - split; reflexivity.
    - inversion H3; subst. cbn [items_of]. change (index_text i) with (key_of_index i). rewrite H; [|apply Forall_app; split; [assumption|constructor; [apply index_plain; assumption|constructor]]|assumption].
      destruct H0 as [E1 E2]; [lia|assumption|assumption|]. cbn [jbind]. rewrite E1. split; [reflexivity|rewrite !zlen_cons; lia].
    - split; reflexivity.
    - inversion H3; subst. cbn [map fst] in H2. inversion H2; subst. cbn [members_of]. rewrite H; [|apply Forall_app; split; [assumption|constructor; [assumption|constructor]]|assumption].
      destruct H0 as [E1 E2]; [assumption|assumption|assumption|]. cbn [jbind]. rewrite E1. split; [|rewrite !zlen_cons; lia]. cbn [jbind flat_map fst snd]. cbv zeta. cbn [app]. rewrite <- app_assoc. reflexivity.
  Qed.

  (** ** Undefined values *)
  Definition no_fault {A} (x : jres A) : Prop := match x with JFault _ _ => False | _ => True end.

  Section raw_ind.
    Variable P : raw -> Prop.
    Hypothesis Hn : P RNull. Hypothesis Hu : P RUndef. Hypothesis Hb : forall b, P (RBool b). Hypothesis Hm : forall n, P (RNum n).
    Hypothesis Hs : forall s, P (RStr s). Hypothesis Hf : forall s, P (RBuffer s). Hypothesis Hd : forall d, P (RDate d).
    Hypothesis Ha : forall l, Forall P l -> P (RArr l). Hypothesis Ho : forall m, Forall (fun kv => P (snd kv)) m -> P (RObj m).
    Fixpoint raw_nested_ind (v : raw) : P v :=
      match v with
      | RNull => Hn | RUndef => Hu | RBool b => Hb b | RNum n => Hm n | RStr s => Hs s | RBuffer s => Hf s | RDate d => Hd d
      | RArr l => Ha l ((fix go (l : list raw) : Forall P l := match l with [] => Forall_nil _ | x :: r => Forall_cons _ (raw_nested_ind x) (go r) end) l)
      | RObj m => Ho m ((fix go (m : list (jstring * raw)) : Forall (fun kv => P (snd kv)) m :=
                           match m with [] => Forall_nil _ | x :: r => Forall_cons _ (raw_nested_ind (snd x)) (go r) end) m)
      end.
  End raw_ind.

  Lemma bind_no_fault : forall A C (x : jres A) (f : A -> jres C), no_fault x -> (forall a, no_fault (f a)) -> no_fault (jbind x f).
  Proof. intros A C [a| |n m] f X Y; cbn in *; auto. Qed.

  Lemma serialize_no_fault : forall v p, no_fault (serialize_raw log2_of clock h ver p v).
  Proof.
    induction v using raw_nested_ind; intro p; try exact I.
    - destruct d; exact I.
    - rewrite ser_arr. destruct (hint_is "binary" h p); [exact I|]. apply bind_no_fault; [|intro; exact I]. generalize 0.
      induction H as [|x l X _ IH]; intro i; [exact I|]. cbn [items_of]. apply bind_no_fault; [apply X|]. intro. apply bind_no_fault; [apply IH|intro; exact I].
    - rewrite ser_obj. destruct (wrapped "binary" m); [destruct (member (jtext "value") m) as [[]|]; exact I|].
      destruct (wrapped "float" m); [destruct (member (jtext "value") m) as [[]|]; exact I|]. apply bind_no_fault; [|intro; exact I].
      induction H as [|[k x] l X _ IH]; [exact I|]. cbn [members_of]. apply bind_no_fault; [apply X|]. intro. apply bind_no_fault; [apply IH|intro; exact I].
  Qed.

  Lemma bind_throw : forall A C (x : jres A) (f : A -> jres C), no_fault x -> (forall a, f a = JThrow) -> jbind x f = JThrow.
  Proof. intros A C [a| |n m] f X Y; cbn in *; [apply Y|reflexivity|destruct X]. Qed.

  Lemma items_no_fault : forall l p i, no_fault (items_of p i l).
  Proof.
    induction l as [|x l IH]; intros p i; [exact I|]. cbn [items_of]. apply bind_no_fault; [apply serialize_no_fault|].
    intro. apply bind_no_fault; [apply IH|intro; exact I].
  Qed.

  Lemma serialize_undefined : forall p v, undefined_in B p v -> Forall plain p -> serialize_raw log2_of clock h ver p v = JThrow.
  Proof.
    intros p v U. induction U as [p|p l i v NB N U IH|p o k v NW I PK U IH]; intro PP.
    - reflexivity.
    - rewrite ser_arr. destruct (hint_spec h F B p G PP) as [_ HB]. destruct (hint_is "binary" h p); [exfalso; apply NB, HB; reflexivity|].
      assert (E : items_of p 0 l = JThrow); [|rewrite E; reflexivity].
      assert (IT : serialize_raw log2_of clock h ver (p ++ [index_text (0 + Z.of_nat i)]) v = JThrow).
      { apply IH. apply Forall_app. split; [exact PP|]. constructor; [apply index_plain; lia|constructor]. }
      clear - N IT. revert i N IT. generalize 0. induction l as [|x l IL]; intros z i N IT; [destruct i; discriminate|]. cbn [items_of].
      destruct i as [|i]; cbn [nth_error] in N.
      + inversion N; subst. replace (z + Z.of_nat 0) with z in IT by lia. rewrite IT. reflexivity.
      + apply bind_throw; [apply serialize_no_fault|]. intro. erewrite IL; [reflexivity|exact N|]. replace (z + 1 + Z.of_nat i) with (z + Z.of_nat (S i)) by lia. exact IT.
    - rewrite ser_obj. destruct (not_wrapped o NW) as [-> ->].
      assert (E : members_of p o = JThrow); [|rewrite E; reflexivity].
      assert (IT : serialize_raw log2_of clock h ver (p ++ [k]) v = JThrow).
      { apply IH. apply Forall_app. split; [exact PP|]. constructor; [exact PK|constructor]. }
      clear - I IT. induction o as [|[q x] o IL]; [destruct I|]. cbn [members_of]. destruct I as [I|I].
      + inversion I; subst. rewrite IT. reflexivity.
      + apply bind_throw; [apply serialize_no_fault|]. intro. rewrite (IL I). reflexivity.
  Qed.
End Ser.
