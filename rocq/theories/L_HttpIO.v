(** Lemmas about reading lines and blocks from a socket. *)
From Coq Require Import Lia.
From Verif Require Import Base Text M_Base64 M_Iso M_Url M_Http M_HttpIO S_Http L_Base.

Lemma blen_app : forall a b, blen (a ++ b) = blen a + blen b.
Proof. intros. rewrite !blen_zlen. apply zlen_app. Qed.
Lemma blen_nonneg : forall a, 0 <= blen a.
Proof. intros. rewrite blen_zlen. apply zlen_nonneg. Qed.
Lemma blen_cons : forall c a, blen (c :: a) = 1 + blen a.
Proof. intros. rewrite !blen_zlen. apply zlen_cons. Qed.
Lemma blen_pos : forall a, a <> [] -> 1 <= blen a.
Proof. intros [|c a] H; [congruence|]. rewrite blen_zlen, zlen_cons. pose proof (zlen_nonneg _ a). lia. Qed.

Lemma blen_ztake : forall n (a : bytes), 0 <= n -> blen (ztake n a) = Z.min n (blen a).
Proof. intros. unfold blen, ztake, bytes in *. rewrite firstn_length. lia. Qed.
Lemma zdrop_min : forall n (a : bytes), zdrop (Z.min n (blen a)) a = zdrop n a.
Proof.
  intros. unfold blen, zdrop, bytes in *. destruct (Z.le_gt_cases n (Z.of_nat (List.length a))); [rewrite Z.min_l by lia; reflexivity|].
  rewrite Z.min_r by lia. rewrite !skipn_all2 by lia. reflexivity.
Qed.

Lemma find_char_some : forall c l i, find_char c l = Some i ->
  exists a x b, l = a ++ x :: b /\ is_char c x = true /\ blen a = i /\ find_char c a = None.
Proof.
  induction l as [|y l IH]; intros i H; [discriminate|]. cbn [find_char] in H. destruct (is_char c y) eqn:E.
  - inversion H; subst. exists [], y, l. auto.
  - destruct (find_char c l) as [j|] eqn:EF; [|discriminate]. assert (HI : i = 1 + j) by (change (Some (1 + j) = Some i) in H; congruence). clear H. subst i.
    destruct (IH j eq_refl) as (a & x & b & -> & EX & EL & EN). exists (y :: a), x, b.
    repeat split; auto; [rewrite blen_cons; lia|]. cbn. rewrite E, EN. reflexivity.
Qed.
Lemma find_char_app_none : forall c a b, find_char c a = None ->
  find_char c (a ++ b) = option_map (Z.add (blen a)) (find_char c b).
Proof.
  induction a as [|y a IH]; intros b H; [cbn; destruct (find_char c b); reflexivity|]. cbn [find_char app] in H |- *.
  destruct (is_char c y) eqn:E; [discriminate|]. destruct (find_char c a) eqn:EA; [discriminate|].
  rewrite (IH b eq_refl). destruct (find_char c b) as [j|]; [|reflexivity]. change (Some (1 + (blen a + j)) = Some (blen (y :: a) + j)). f_equal.
  rewrite blen_cons. lia.
Qed.
Lemma find_char_app_some : forall c a b i, find_char c a = Some i -> find_char c (a ++ b) = Some i.
Proof.
  induction a as [|y a IH]; intros b i H; [discriminate|]. cbn in H |- *. destruct (is_char c y); [assumption|].
  destruct (find_char c a) as [j|] eqn:E; [|discriminate]. rewrite (IH b j eq_refl). assumption.
Qed.
Lemma find_char_none_in : forall c l, find_char c l = None <-> (forall x, In x l -> b2z x <> c).
Proof.
  induction l as [|y l IH]; cbn; split; intros H; try easy.
  - destruct (is_char c y) eqn:E; [discriminate|]. destruct (find_char c l) eqn:EL; [discriminate|].
    intros x [->|HX]; [unfold is_char in E; apply Z.eqb_neq in E; assumption|]. apply (proj1 IH eq_refl x HX).
  - replace (is_char c y) with false by (symmetry; unfold is_char; apply Z.eqb_neq; apply H; auto).
    rewrite (proj2 IH); [reflexivity|]. intros. apply H; auto.
Qed.

(** One [recv]. *)
Lemma seen_spec : forall want s, pending s <> [] -> 1 <= want ->
  exists r, pending s = seen want s ++ r /\ seen want s <> [] /\ blen (seen want s) <= want
    /\ consume (blen (seen want s)) s = mkSock r (tl (sees s)) (fin s).
Proof.
  intros want s HP HW. pose proof (blen_pos _ HP) as HL.
  set (n := Z.min want (match sees s with [] => blen (pending s) | n :: _ => Z.max 1 n end)).
  assert (HN : 1 <= n <= want) by (unfold n; destruct (sees s); lia).
  exists (zdrop n (pending s)). unfold seen, consume. fold n.
  assert (HT : pending s = ztake n (pending s) ++ zdrop n (pending s)) by (symmetry; apply ztake_zdrop).
  assert (HTL : blen (ztake n (pending s)) = Z.min n (blen (pending s))).
  { apply blen_ztake. lia. }
  split; [assumption|]. split; [intro E; rewrite E in HTL; cbn in HTL; lia|]. split; [lia|].
  f_equal. rewrite HTL. apply zdrop_min.
Qed.

(** The line [readLineOpt] reads from the bytes [p] followed by the ending [f]. *)
Definition too_long (check : bool) (limit n : Z) : bool := check && (0 <=? limit) && (limit <? n).
Definition line_result (check : bool) (limit : Z) (optional first : bool) (acc p : bytes) (f : ending) : res bytes :=
  match find_char 10 p with
  | Some i => if too_long check limit (blen acc + i + 1) then err HTTP_LINE_TOO_LONG
              else Ok (strip_end is_cr (acc ++ ztake i p))
  | None =>
      if (0 <? blen p) && too_long check limit (blen acc + blen p) then err HTTP_LINE_TOO_LONG
      else match f with
           | TimedOut => if optional then Ok [] else err HTTP_TIMEOUT
           | Broken => err HTTP_SYSCALL
           | Closed => if first && (blen p =? 0) && optional then Ok [] else err HTTP_CLOSED
           end
  end.
Definition after_line (p : bytes) : bytes := match find_char 10 p with Some i => zdrop (i + 1) p | None => [] end.

Lemma read_line_loop_spec : forall fuel check limit optional first acc s, (List.length (pending s) < fuel)%nat ->
  exists p v, read_line_loop fuel check limit optional first acc s
              = (mkSock p v (fin s), line_result check limit optional first acc (pending s) (fin s))
    /\ (forall l, line_result check limit optional first acc (pending s) (fin s) = Ok l -> p = after_line (pending s))
    /\ (List.length p <= List.length (pending s))%nat.
Proof.
  induction fuel as [|fuel IH]; intros check limit optional first acc s HF; [lia|].
  cbn [read_line_loop]. destruct (pending s) as [|x0 p0] eqn:EP.
  - exists [], (sees s). split; [|split; [reflexivity|cbn; lia]]. destruct s as [p v f]; cbn in EP; subst p. unfold line_result; cbn.
    rewrite andb_true_r. reflexivity.
  - rewrite <- EP in *.
    assert (HNE : pending s <> []) by congruence.
    destruct (seen_spec HTTP_BUFF_LENGTH s HNE ltac:(unfold HTTP_BUFF_LENGTH; lia)) as (r & HR & HD & HLD & HC).
    set (d := seen HTTP_BUFF_LENGTH s) in *. clearbody d.
    fold (too_long check limit).
    destruct (find_char 10 d) as [i|] eqn:EFD.
    + assert (EFP : find_char 10 (pending s) = Some i) by (rewrite HR; apply find_char_app_some; assumption).
      destruct (find_char_some _ _ _ EFD) as (a & x & b & -> & EX & EL & EN).
      unfold line_result, after_line. rewrite EFP.
      replace (ztake i (a ++ x :: b)) with a by (symmetry; apply ztake_app'; rewrite <- blen_zlen; auto).
      replace (ztake i (pending s)) with a
        by (rewrite HR, <- app_assoc; symmetry; apply ztake_app'; rewrite <- blen_zlen; auto).
      change (check && (0 <=? limit) && (limit <? blen acc + (i + 1))) with (too_long check limit (blen acc + (i + 1))).
      replace (blen acc + (i + 1)) with (blen acc + i + 1) by lia.
      destruct (too_long check limit (blen acc + i + 1)).
      * exists (pending s), (sees s). split; [destruct s; reflexivity|]. split; [discriminate|lia].
      * exists (zdrop (i + 1) (pending s)), (tl (sees s)). split; [reflexivity|]. split; [reflexivity|].
        unfold zdrop. rewrite skipn_length. lia.
    + change (check && (0 <=? limit) && (limit <? blen acc + blen d)) with (too_long check limit (blen acc + blen d)).
      assert (EFP : find_char 10 (pending s) = option_map (Z.add (blen d)) (find_char 10 r))
        by (rewrite HR; apply find_char_app_none; assumption).
      pose proof (blen_pos _ HD) as HDP. pose proof (blen_nonneg r) as HRP.
      assert (HPL : blen (pending s) = blen d + blen r) by (rewrite HR; apply blen_app).
      destruct (too_long check limit (blen acc + blen d)) eqn:ETL.
      * exists (pending s), (sees s).
        assert (EL : line_result check limit optional first acc (pending s) (fin s) = err HTTP_LINE_TOO_LONG).
        { unfold line_result. rewrite EFP. unfold too_long in *.
          apply andb_true_iff in ETL; destruct ETL as [ETL1 ETL2]; rewrite ETL1; cbn.
          apply Z.ltb_lt in ETL2. destruct (find_char 10 r) as [j|] eqn:EFR; cbn [option_map].
          - destruct (find_char_some _ _ _ EFR) as (a & x & b & _ & _ & EA & _). pose proof (blen_nonneg a).
            replace (limit <? blen acc + (blen d + j) + 1) with true by (symmetry; apply Z.ltb_lt; lia). reflexivity.
          - rewrite HPL. replace (limit <? blen acc + (blen d + blen r)) with true by (symmetry; apply Z.ltb_lt; lia).
            replace (0 <? blen d + blen r) with true by (symmetry; apply Z.ltb_lt; lia). reflexivity. }
        rewrite EL. split; [destruct s; reflexivity|]. split; [discriminate|lia].
      * destruct (IH check limit optional false (acc ++ d) (consume (blen d) s)) as (p & v & E & EA & ELn).
        { rewrite HC. cbn [pending]. rewrite HR, app_length in HF. destruct d; [congruence|]. cbn in HF. lia. }
        rewrite HC in E, EA, ELn. cbn [pending fin] in *. exists p, v.
        assert (ELR : line_result check limit optional false (acc ++ d) r (fin s)
                      = line_result check limit optional first acc (pending s) (fin s)).
        { unfold line_result. rewrite EFP. destruct (find_char 10 r) as [j|] eqn:EFR; cbn [option_map].
          - rewrite blen_app. replace (blen acc + blen d + j + 1) with (blen acc + (blen d + j) + 1) by lia.
            destruct (too_long check limit (blen acc + (blen d + j) + 1)); [reflexivity|]. f_equal. f_equal.
            destruct (find_char_some _ _ _ EFR) as (a & x & b & HRR & _ & EAA & _). pose proof (blen_nonneg a).
            rewrite HR, HRR, <- app_assoc. rewrite blen_zlen in *. f_equal.
            rewrite (ztake_app' _ j a) by lia. rewrite app_assoc. rewrite ztake_app'; [reflexivity|].
            rewrite zlen_app, <- (blen_zlen d). lia.
          - rewrite blen_app, HPL. replace (0 <? blen d + blen r) with true by (symmetry; apply Z.ltb_lt; lia).
            replace (blen d + blen r =? 0) with false by (symmetry; apply Z.eqb_neq; lia).
            rewrite andb_false_r. cbn [andb].
            replace (blen acc + (blen d + blen r)) with (blen acc + blen d + blen r) by lia.
            destruct (Z.ltb_spec 0 (blen r)) as [H|H]; [reflexivity|].
            replace (blen r) with 0 by lia. rewrite Z.add_0_r, ETL. reflexivity. }
        rewrite <- ELR. split; [rewrite HC; exact E|]. split.
        { intros l HL. rewrite (EA l HL). unfold after_line. rewrite EFP.
          destruct (find_char 10 r) as [j|] eqn:EFR; cbn [option_map]; [|reflexivity].
          destruct (find_char_some _ _ _ EFR) as (a & x & b & HRR & _ & EAA & _). pose proof (blen_nonneg a).
          rewrite HR. replace (blen d + j + 1) with (blen d + (j + 1)) by lia.
          rewrite <- (zdrop_zdrop _ (j + 1) (blen d)) by lia.
          rewrite (zdrop_app' _ (blen d)) by apply blen_zlen. reflexivity. }
        rewrite HR, app_length. lia.
Qed.
