(** The calendar has one date for every day. *)
From Coq Require Import Lia ZifyBool.
From Verif Require Import Base S_Calendar.

Lemma month_days_pos : forall y m, 28 <= month_days y m <= 31.
Proof. intros. unfold month_days. destruct (m =? 2), (leap y), ((m =? 4) || (m =? 6) || (m =? 9) || (m =? 11)); lia. Qed.

Lemma div_step : forall k y, 0 < k -> y / k = (y - 1) / k + (if y mod k =? 0 then 1 else 0).
Proof.
  intros k y K. pose proof (Z.div_mod y k ltac:(lia)) as E. pose proof (Z.mod_pos_bound y k K) as B.
  revert E B. generalize (y / k) (y mod k). intros q r E B. subst y. destruct (r =? 0) eqn:Z.
  - replace (k * q + r - 1) with ((k - 1) + (q - 1) * k) by lia. rewrite Z.div_add, Z.div_small; lia.
  - replace (k * q + r - 1) with ((r - 1) + q * k) by lia. rewrite Z.div_add, Z.div_small; lia.
Qed.

Lemma year_step : forall y, days_to_year (y + 1) = days_to_year y + (if leap y then 366 else 365).
Proof.
  intros. unfold days_to_year, leap. replace (y + 1 - 1) with y by lia.
  rewrite (div_step 4 y), (div_step 100 y), (div_step 400 y) by lia.
  assert (A: y mod 100 = 0 -> y mod 4 = 0). { intros. apply Z.mod_divide; [lia|]. apply Z.mod_divide in H; [|lia]. destruct H as (q & ->). exists (q * 25). lia. }
  assert (B: y mod 400 = 0 -> y mod 100 = 0). { intros. apply Z.mod_divide; [lia|]. apply Z.mod_divide in H; [|lia]. destruct H as (q & ->). exists (q * 4). lia. }
  destruct (y mod 4 =? 0) eqn:E1, (y mod 100 =? 0) eqn:E2, (y mod 400 =? 0) eqn:E3; cbn [andb orb negb]; lia.
Qed.

Lemma months_year : forall y, days_in_months y 12 = if leap y then 366 else 365.
Proof. intros. unfold days_in_months, month_days. cbn. destruct (leap y); reflexivity. Qed.

Lemma months_mono : forall y a b, (a <= b)%nat -> days_in_months y a <= days_in_months y b.
Proof. intros y a b H. induction H; [lia|]. cbn [days_in_months]. pose proof (month_days_pos y (Z.of_nat (S m))). lia. Qed.

Lemma month_step : forall y m, 1 <= m -> days_to_month y (m + 1) = days_to_month y m + month_days y m.
Proof.
  intros. unfold days_to_month. replace (Z.to_nat (m + 1 - 1)) with (S (Z.to_nat (m - 1))) by lia. cbn [days_in_months].
  replace (Z.of_nat (S (Z.to_nat (m - 1)))) with m by lia. reflexivity.
Qed.

(** A day lies within its month, its month within its year. *)
Lemma day_in_month : forall y m d, valid_day y m d -> day_number y m 1 <= day_number y m d < day_number y m 1 + month_days y m.
Proof. intros y m d (M & D). unfold day_number. lia. Qed.
Lemma day_in_year : forall y m d, valid_day y m d -> day_number y 1 1 <= day_number y m d < day_number (y + 1) 1 1.
Proof.
  intros y m d (M & D). unfold day_number. rewrite year_step. unfold days_to_month. rewrite <- months_year.
  pose proof (months_mono y (Z.to_nat (m - 1)) 11 ltac:(lia)). pose proof (months_mono y 0 (Z.to_nat (m - 1)) ltac:(lia)).
  pose proof (months_mono y (S (Z.to_nat (m - 1))) 12 ltac:(lia)) as S.
  change (days_in_months y (Datatypes.S (Z.to_nat (m - 1)))) with (days_in_months y (Z.to_nat (m - 1)) + month_days y (Z.of_nat (Datatypes.S (Z.to_nat (m - 1))))) in S.
  replace (Z.of_nat (Datatypes.S (Z.to_nat (m - 1)))) with m in S by lia.
  change (Z.to_nat (1 - 1)) with O. change (days_in_months (y + 1) 0) with 0. change (days_in_months y 0) with 0 in *. lia.
Qed.

Lemma year_mono : forall y z, y <= z -> day_number y 1 1 <= day_number z 1 1.
Proof.
  intros y z L. replace z with (y + Z.of_nat (Z.to_nat (z - y))) by lia. generalize (Z.to_nat (z - y)). intros n. induction n as [|n IH].
  - rewrite Z.add_0_r. lia.
  - replace (y + Z.of_nat (S n)) with (y + Z.of_nat n + 1) by lia. revert IH. unfold day_number. rewrite year_step.
    change (days_to_month (y + Z.of_nat n + 1) 1) with 0. change (days_to_month (y + Z.of_nat n) 1) with 0. destruct (leap (y + Z.of_nat n)); lia.
Qed.

Theorem day_unique : forall y m d y' m' d', valid_day y m d -> valid_day y' m' d' -> day_number y m d = day_number y' m' d' -> y = y' /\ m = m' /\ d = d'.
Proof.
  intros y m d y' m' d' V V' E.
  assert (Y: y = y').
  { pose proof (day_in_year _ _ _ V). pose proof (day_in_year _ _ _ V').
    destruct (Z.lt_trichotomy y y') as [L|[L|L]]; [|exact L|].
    - pose proof (year_mono (y + 1) y' ltac:(lia)). lia.
    - pose proof (year_mono (y' + 1) y ltac:(lia)). lia. }
  subst y'. assert (M: m = m').
  { pose proof (day_in_month _ _ _ V). pose proof (day_in_month _ _ _ V'). destruct V as (A & _), V' as (A' & _).
    assert (G: forall a b, 1 <= a -> a < b -> b <= 12 -> day_number y a 1 + month_days y a <= day_number y b 1).
    { intros a b A1 AB B1. unfold day_number. enough (days_to_month y (a + 1) <= days_to_month y b) by (rewrite month_step in *; lia).
      unfold days_to_month. apply months_mono. lia. }
    destruct (Z.lt_trichotomy m m') as [L|[L|L]]; [|exact L|]; [specialize (G m m')|specialize (G m' m)]; lia. }
  subst m'. repeat split. unfold day_number in E. lia.
Qed.

Theorem seconds_unique : forall y m d h mi s y' m' d' h' mi' s', valid y m d h mi s -> valid y' m' d' h' mi' s' ->
  seconds y m d h mi s = seconds y' m' d' h' mi' s' -> y = y' /\ m = m' /\ d = d' /\ h = h' /\ mi = mi' /\ s = s'.
Proof.
  intros y m d h mi s y' m' d' h' mi' s' (D & T) (D' & T') E. unfold seconds in E.
  assert (N: day_number y m d = day_number y' m' d') by lia.
  destruct (day_unique _ _ _ _ _ _ D D' N) as (-> & -> & ->). repeat split; lia.
Qed.

(** The day after and the day before. *)
Definition next_day (x : Z * Z * Z) : Z * Z * Z :=
  let '(y, m, d) := x in
  if d <? month_days y m then (y, m, d + 1) else if m <? 12 then (y, m + 1, 1) else (y + 1, 1, 1).
Definition prev_day (x : Z * Z * Z) : Z * Z * Z :=
  let '(y, m, d) := x in
  if 1 <? d then (y, m, d - 1) else if 1 <? m then (y, m - 1, month_days y (m - 1)) else (y - 1, 12, 31).
Definition number (x : Z * Z * Z) : Z := let '(y, m, d) := x in day_number y m d.
Definition proper (x : Z * Z * Z) : Prop := let '(y, m, d) := x in valid_day y m d.

Lemma next_ok : forall x, proper x -> proper (next_day x) /\ number (next_day x) = number x + 1.
Proof.
  intros ((y, m), d) (M & D). unfold next_day. destruct (d <? month_days y m) eqn:E; [|destruct (m <? 12) eqn:F].
  - cbn. unfold valid_day, day_number. lia.
  - cbn. unfold valid_day, day_number. rewrite month_step by lia. pose proof (month_days_pos y (m + 1)). lia.
  - cbn. assert (m = 12) by lia. subst m. unfold valid_day, day_number. rewrite year_step. change (days_to_month (y + 1) 1) with 0.
    unfold days_to_month. change (Z.to_nat (12 - 1)) with 11%nat. pose proof (months_year y) as Y. cbn [days_in_months] in Y.
    change (Z.of_nat 12) with 12 in Y. change (month_days y 12) with 31 in *.
    assert (d = 31) by lia. subst d. split; [pose proof (month_days_pos (y + 1) 1); lia|]. cbn [days_in_months]. lia.
Qed.

Lemma prev_ok : forall x, proper x -> proper (prev_day x) /\ number (prev_day x) = number x - 1.
Proof.
  intros ((y, m), d) (M & D). unfold prev_day. destruct (1 <? d) eqn:E; [|destruct (1 <? m) eqn:F].
  - cbn. unfold valid_day, day_number. lia.
  - cbn. unfold valid_day, day_number. pose proof (month_step y (m - 1) ltac:(lia)) as S. replace (m - 1 + 1) with m in S by lia.
    pose proof (month_days_pos y (m - 1)). lia.
  - cbn. assert (m = 1) by lia. assert (d = 1) by lia. subst m d. destruct (next_ok (y - 1, 12, 31)) as (A & B).
    + cbn. unfold valid_day. change (month_days (y - 1) 12) with 31. lia.
    + unfold next_day in B. change (month_days (y - 1) 12) with 31 in B. cbn in B. replace (y - 1 + 1) with y in B by lia.
      unfold valid_day. change (month_days (y - 1) 12) with 31. lia.
Qed.

(** The date of a day. *)
Definition civil (n : Z) : Z * Z * Z :=
  if 0 <=? n then N.iter (Z.to_N n) next_day (1970, 1, 1) else N.iter (Z.to_N (- n)) prev_day (1970, 1, 1).

Lemma iter_next : forall n, proper (N.iter n next_day (1970, 1, 1)) /\ number (N.iter n next_day (1970, 1, 1)) = Z.of_N n.
Proof.
  intros n. induction n as [|n IH] using N.peano_ind; [vm_compute; repeat split; discriminate|].
  rewrite N.iter_succ. destruct IH as (P & Q). destruct (next_ok _ P) as (P' & Q'). split; [exact P'|]. rewrite Q', Q. lia.
Qed.
Lemma iter_prev : forall n, proper (N.iter n prev_day (1970, 1, 1)) /\ number (N.iter n prev_day (1970, 1, 1)) = - Z.of_N n.
Proof.
  intros n. induction n as [|n IH] using N.peano_ind; [vm_compute; repeat split; discriminate|].
  rewrite N.iter_succ. destruct IH as (P & Q). destruct (prev_ok _ P) as (P' & Q'). split; [exact P'|]. rewrite Q', Q. lia.
Qed.
Theorem civil_ok : forall n, proper (civil n) /\ number (civil n) = n.
Proof.
  intros n. unfold civil. destruct (0 <=? n) eqn:E.
  - destruct (iter_next (Z.to_N n)) as (P & Q). split; [exact P|]. rewrite Q. lia.
  - destruct (iter_prev (Z.to_N (- n))) as (P & Q). split; [exact P|]. rewrite Q. lia.
Qed.
