(** Proofs about the texts of errors. *)
From Coq Require Import Lia.
From Verif Require Import Base Value Text M_Url M_Values M_ErrText M_Iso S_Value S_Containers S_ErrText L_Base L_Text L_Registry P_Values.

Lemma dec_aux_len : forall fuel n acc, zlen (dec_aux fuel n acc) <= Z.of_nat fuel + 1 + zlen acc.
Proof.
  induction fuel as [|k IH]; intros n acc; cbn [dec_aux]; destruct (n <? 10); rewrite ?zlen_cons; try lia.
  specialize (IH (n / 10) (digit (n mod 10) :: acc)). rewrite zlen_cons in IH. lia.
Qed.
Lemma dec_len : forall n, 0 <= n < 2 ^ 64 -> zlen (dec n) <= 64.
Proof.
  intros n H. unfold dec. pose proof (dec_aux_len (Z.to_nat (Z.log2 n)) n []) as L. rewrite zlen_nil in L.
  assert (Z.log2 n <= 63). { destruct (Z.eq_dec n 0) as [->|N]; [cbn; lia|]. apply Z.lt_succ_r. apply Z.log2_lt_pow2; lia. }
  pose proof (Z.log2_nonneg n). lia.
Qed.
Lemma s64_range : forall n, 0 <= n < 2 ^ 64 -> (n < 2 ^ 63 /\ s64 n = n) \/ (2 ^ 63 <= n /\ s64 n = n - 2 ^ 64).
Proof.
  intros n H. unfold s64, signed. rewrite Z.mod_small by lia. change (64 - 1) with 63. destruct (n <? 2 ^ 63) eqn:E; [apply Z.ltb_lt in E; left|apply Z.ltb_ge in E; right]; split; lia.
Qed.
Lemma dec_signed_len : forall n, - 2 ^ 63 <= n < 2 ^ 63 -> zlen (dec_signed n) <= 65.
Proof. intros n H. unfold dec_signed. destruct (n <? 0) eqn:E; [apply Z.ltb_lt in E; rewrite zlen_cons; pose proof (dec_len (- n)); lia|apply Z.ltb_ge in E; pose proof (dec_len n); lia]. Qed.
Lemma zd_len : forall n, 0 <= n < 2 ^ 64 -> zlen (zd n) <= 65.
Proof. intros n H. unfold zd. apply dec_signed_len. destruct (s64_range n H) as [(A & ->)|(A & ->)]; lia. Qed.

Lemma take_all : forall A n (l : list A), zlen l <= n -> ztake n l = l.
Proof. intros A n l H. unfold ztake. apply firstn_all2. unfold zlen in H. lia. Qed.
Lemma formatted_short : forall p, zlen (List.concat p) <= 1023 -> formatted p = List.concat p.
Proof. intros. apply take_all. assumption. Qed.

Lemma index_exact : forall i n, 0 <= i < 2 ^ 64 -> 0 <= n < 2 ^ 64 -> index_text i n = says_range (s64 i) (s64 n).
Proof.
  intros i n I N. unfold index_text. rewrite formatted_short.
  - cbn [List.concat]. rewrite ?(app_nil_r (A:=byte)). reflexivity.
  - pose proof (zd_len i I). pose proof (zd_len n N). cbn [List.concat]. rewrite !zlen_app. cbn -[zd Z.add] in *. lia.
Qed.

Lemma cut_at : forall (c : byte) a a' r r', ~ In c a -> ~ In c a' -> a ++ c :: r = a' ++ c :: r' -> a = a' /\ r = r'.
Proof.
  intros c. induction a as [|x a IH]; intros [|y a'] r r' N N' E; cbn [app] in E; inversion E; subst; auto.
  - exfalso. apply N'. left. reflexivity.
  - exfalso. apply N. left. reflexivity.
  - destruct (IH a' r r') as (-> & ->); auto; intro X; [apply N|apply N']; right; exact X.
Qed.
Lemma signed_chars : forall n c, In c (dec_signed n) -> is_digit c = true \/ c = x2d.
Proof.
  assert (D: forall n c, 0 <= n -> In c (dec n) -> is_digit c = true) by (intros n c H I; destruct (dec_spec n H) as (_ & F & _); rewrite Forall_forall in F; auto).
  intros n c I. unfold dec_signed in I. destruct (n <? 0) eqn:E; [apply Z.ltb_lt in E|apply Z.ltb_ge in E].
  - destruct I as [<-|I]; [auto|]. left. apply (D (- n)); [lia|exact I].
  - left. apply (D n); [lia|exact I].
Qed.
Lemma signed_no : forall n c, is_digit c = false -> c <> x2d -> ~ In c (dec_signed n).
Proof. intros n c D N I. destruct (signed_chars n c I); congruence. Qed.
Lemma signed_inj : forall a b, dec_signed a = dec_signed b -> a = b.
Proof.
  assert (M: forall n r, 0 <= n -> dec n = x2d :: r -> False).
  { intros n r H E. destruct (dec_spec n H) as (_ & F & _). rewrite E in F. inversion F; subst. discriminate. }
  intros a b. unfold dec_signed. destruct (a <? 0) eqn:A, (b <? 0) eqn:B; rewrite ?Z.ltb_lt, ?Z.ltb_ge in *; intro E.
  - inversion E as [E']. apply dec_inj in E'; lia.
  - exfalso. apply (M b (dec (- a))); [lia|auto].
  - exfalso. apply (M a (dec (- b))); [lia|auto].
  - apply dec_inj in E; lia.
Qed.
Lemma range_inj : forall i n i' n', says_range i n = says_range i' n' -> i = i' /\ n = n'.
Proof.
  intros i n i' n' E. unfold says_range in E. apply app_inv_head in E.
  change (str " is out of range 0 - ") with (x20 :: str "is out of range 0 - ") in E. cbn [app] in E.
  apply cut_at in E; [|apply signed_no; [reflexivity|discriminate]|apply signed_no; [reflexivity|discriminate]]. destruct E as (A & E). apply app_inv_head in E.
  change (str ".") with [x2e] in E. apply cut_at in E; [|apply signed_no; [reflexivity|discriminate]|apply signed_no; [reflexivity|discriminate]].
  split; apply signed_inj; tauto.
Qed.
Lemma s64_inj : forall a b, 0 <= a < 2 ^ 64 -> 0 <= b < 2 ^ 64 -> s64 a = s64 b -> a = b.
Proof. intros a b A B E. destruct (s64_range a A) as [(X & P)|(X & P)], (s64_range b B) as [(Y & Q)|(Y & Q)]; lia. Qed.

Lemma key_exact : forall k, ~ In x00 k -> zlen k <= 1001 -> key_text k = says_key k.
Proof.
  intros k N L. unfold key_text. rewrite c_str_same by exact N. rewrite formatted_short.
  - cbn [List.concat]. rewrite ?(app_nil_r (A:=byte)). reflexivity.
  - cbn [List.concat]. rewrite !zlen_app. change (zlen (str "Key """)) with 5. change (zlen (str """ does not exist.")) with 17. rewrite zlen_nil. lia.
Qed.
Lemma says_key_inj : forall k k', says_key k = says_key k' -> k = k'.
Proof. intros k k' E. unfold says_key in E. apply app_inv_head in E. apply app_inv_tail in E. exact E. Qed.
Lemma key_long : forall k a, ~ In x00 k -> ~ In x00 a -> 1018 <= zlen k -> key_text (k ++ a) = ztake 1023 (str "Key """ ++ k).
Proof.
  intros k a N A L. unfold key_text, formatted. rewrite c_str_same by (intro X; apply in_app_or in X; tauto). cbn [List.concat]. rewrite app_nil_r.
  replace (str "Key """ ++ (k ++ a) ++ str """ does not exist.") with ((str "Key """ ++ k) ++ (a ++ str """ does not exist.")) by (rewrite <- ?app_assoc; reflexivity).
  unfold ztake. rewrite firstn_app. replace (Z.to_nat 1023 - length (str "Key """ ++ k))%nat with 0%nat; [rewrite firstn_O, app_nil_r; reflexivity|].
  rewrite app_length. unfold zlen in L. change (length (str "Key """)) with 5%nat. lia.
Qed.
Lemma c_str_nul : forall k a, ~ In x00 k -> c_str (k ++ x00 :: a) = k.
Proof.
  unfold c_str. induction k as [|x k IH]; intros a N; [reflexivity|]. cbn [app break_at].
  assert (X: is_char 0 x = false). { unfold is_char. apply Z.eqb_neq. intro E. apply N. left. apply b2z_inj. exact E. }
  rewrite X. specialize (IH a). destruct (break_at 0 (k ++ x00 :: a)) as (p & q). cbn [fst] in *. f_equal. apply IH. intro I. apply N. right. exact I.
Qed.

Lemma param_exact : forall n w v, 0 <= n < 2 ^ 31 -> zlen w <= 100 -> parameter_text n w v = says_parameter n w (type_name v).
Proof.
  intros n w v N W. unfold parameter_text.
  assert (S: s32 n = n). { unfold s32, signed. rewrite Z.mod_small by lia. change (32 - 1) with 31. assert (X: n <? 2 ^ 31 = true) by (apply Z.ltb_lt; lia). rewrite X. reflexivity. }
  rewrite S. unfold dec_signed. assert (X: n <? 0 = false) by (apply Z.ltb_ge; lia). rewrite X. rewrite formatted_short.
  - cbn [List.concat]. rewrite ?(app_nil_r (A:=byte)). reflexivity.
  - pose proof (dec_len n ltac:(lia)). assert (T: zlen (type_name v) <= 12) by (destruct v; vm_compute; discriminate).
    cbn [List.concat]. rewrite !zlen_app. rewrite zlen_nil. change (zlen (str "Parameter ")) with 10. change (zlen (str " must be ")) with 9. change (zlen (str " not ")) with 5. change (zlen (str ".")) with 1. lia.
Qed.
Lemma wanted_called : forall a, wanted_name (letter_char a) = called a.
Proof. destruct a; reflexivity. Qed.

Lemma loop_text : forall f l n, zlen f = zlen l -> 0 <= n -> n + 2 * zlen l < 2 ^ 31 - 2 ->
  match check_loop_text n (format_text f) l with
  | None => Forall2 item_ok f l
  | Some t => exists f1 a q f2 l1 v l2, f = f1 ++ (a, q) :: f2 /\ l = l1 ++ v :: l2 /\ Forall2 item_ok f1 l1 /\ ~ item_ok (a, q) v /\
      t = says_parameter (n + zlen f1 + nullable f1 + 1) (called a) (type_name v)
  end.
Proof.
  induction f as [|[a q] f IH]; intros [|v l] n EL N B; rewrite ?zlen_cons, ?zlen_nil in EL;
    try (pose proof (zlen_nonneg _ f); lia); try (pose proof (zlen_nonneg _ l); lia).
  - cbn. constructor.
  - rewrite zlen_cons in B. pose proof (zlen_nonneg _ l) as LN.
    set (n' := n + (if q then 2 else 1)).
    assert (U: u32 n' = n') by (unfold u32, unsigned; apply Z.mod_small; subst n'; destruct q; lia).
    assert (U1: u32 (n + 1) = n + 1) by (unfold u32, unsigned; apply Z.mod_small; lia).
    set (nxt := format_text f) in *.
    assert (STEP : check_loop_text n (format_text ((a, q) :: f)) (v :: l) =
                   if q && (type_tag v =? 12) then check_loop_text n' nxt l
                   else match letter_type (letter_char a) with
                        | Some t => if type_tag v =? t then check_loop_text n' nxt l else Some (parameter_text (n + 1) (called a) v)
                        | None => check_loop_text n' nxt l
                        end).
    { cbn [format_text flat_map fst snd]. change (flat_map _ f) with nxt. clear IH. subst n'. destruct q; cbn [app check_loop_text] in *.
      - change (byte_eqb x3f quest) with true. cbn [andb tl]. rewrite U, U1, wanted_called. reflexivity.
      - assert (Q : (match nxt with q :: _ => byte_eqb q quest | [] => false end) = false).
        { subst nxt. destruct f as [|[b q'] f']; [reflexivity|]. cbn. apply letter_not_quest. }
        rewrite Q. cbn [andb]. rewrite ?U, ?U1, wanted_called. reflexivity. }
    rewrite STEP. clear STEP.
    assert (REC: item_ok (a, q) v -> match check_loop_text n' nxt l with
      | None => Forall2 item_ok ((a, q) :: f) (v :: l)
      | Some t => exists f1 a0 q0 f2 l1 v0 l2, (a, q) :: f = f1 ++ (a0, q0) :: f2 /\ v :: l = l1 ++ v0 :: l2 /\ Forall2 item_ok f1 l1 /\ ~ item_ok (a0, q0) v0 /\
          t = says_parameter (n + zlen f1 + nullable f1 + 1) (called a0) (type_name v0)
      end).
    { intro OK. specialize (IH l n' ltac:(lia) ltac:(subst n'; destruct q; lia) ltac:(subst n'; destruct q; lia)). destruct (check_loop_text n' nxt l) as [t|]; [|constructor; assumption].
      destruct IH as (f1 & a0 & q0 & f2 & l1 & v0 & l2 & E1 & E2 & F & K & T). exists ((a, q) :: f1), a0, q0, f2, (v :: l1), v0, l2.
      split; [cbn; congruence|]. split; [cbn; congruence|]. split; [constructor; assumption|]. split; [exact K|]. rewrite T. f_equal.
      unfold nullable. cbn [filter snd]. rewrite zlen_cons. subst n'. destruct q; rewrite ?zlen_cons; lia. }
    destruct (letter_typed a) as (t & ET & NT). pose proof (letter_type_spec a v) as LT. rewrite ET in *.
    destruct (q && (type_tag v =? 12)) eqn:EN.
    + apply andb_true_iff in EN. destruct EN as [-> EN]. apply REC. right. split; [reflexivity|]. apply null_tag. exact EN.
    + destruct (type_tag v =? t) eqn:EV.
      * apply REC. left. apply LT. reflexivity.
      * exists [], a, q, f, [], v, l. split; [reflexivity|]. split; [reflexivity|]. split; [constructor|]. split.
        -- intros [H1|[H1 H2]]; [apply LT in H1; discriminate|]. cbn in H1. subst q v. discriminate.
        -- rewrite param_exact; [|lia|destruct a; vm_compute; discriminate]. f_equal. unfold nullable. cbn. lia.
Qed.
Lemma loop_same : forall rest l n, check_loop rest l <> UB -> (check_loop_text n rest l = None <-> check_loop rest l = Ok tt).
Proof.
  intros rest l. revert rest. induction l as [|v l IH]; intros rest n H; [cbn; tauto|].
  destruct rest as [|c r]; [exfalso; apply H; reflexivity|]. cbn [check_loop check_loop_text] in *.
  destruct (_ && (type_tag v =? 12)); [apply IH, H|]. destruct (letter_type c); [|apply IH, H].
  destruct (type_tag v =? z); [apply IH, H|]. split; discriminate.
Qed.
Lemma first_bad : forall f1 l1 a q v g1 b p g2 m1 w m2, Forall2 item_ok f1 l1 -> ~ item_ok (a, q) v ->
  f1 ++ [(a, q)] = g1 ++ (b, p) :: g2 -> l1 ++ [v] = m1 ++ w :: m2 -> Forall2 item_ok g1 m1 -> ~ item_ok (b, p) w ->
  g1 = f1 /\ b = a /\ p = q /\ m1 = l1 /\ w = v.
Proof.
  intros f1 l1 a q v g1 b p g2 m1 w m2 F K E1 E2 G. revert f1 l1 F E1 E2. induction G as [|g m g1 m1 OK G IH]; intros f1 l1 F E1 E2 K2.
  - destruct F as [|x y f1 l1 OK F]; cbn [app] in *; inversion E1; inversion E2; subst; [auto|]. exfalso. apply K2, OK.
  - destruct F as [|x y f1 l1 OK' F]; cbn [app] in *; inversion E1; inversion E2; subst.
    + exfalso. apply K, OK.
    + destruct (IH f1 l1) as (A & B & C & D & X); auto. subst. auto.
Qed.
Lemma find_in : forall k m x, find_member k m = Some x -> In (k, x) m.
Proof.
  induction m as [|(k' & v) m IH]; intros x E; [discriminate|]. cbn [find_member] in E. destruct (bytes_eqb k k') eqn:B; [|right; apply IH, E].
  apply bytes_eqb_eq in B. inversion E; subst. left. reflexivity.
Qed.
Lemma find_none : forall k m x, find_member k m = None -> ~ In (k, x) m.
Proof.
  induction m as [|(k' & v) m IH]; intros x E; [intros []|]. cbn [find_member] in E. destruct (bytes_eqb k k') eqn:B; [discriminate|].
  intros [X|X]; [|exact (IH x E X)]. inversion X; subst. rewrite (proj2 (bytes_eqb_eq k k) eq_refl) in B. discriminate.
Qed.
Lemma pairs_length : forall A B (R : A -> B -> Prop) l m, Forall2 R l m -> length l = length m.
Proof. intros A B R l m H. induction H; cbn; congruence. Qed.
