(** The Gregorian calendar, extended to all years, and clocks that follow it. *)
From Verif Require Import Base.

Definition leap (y : Z) : bool := (y mod 4 =? 0) && (negb (y mod 100 =? 0) || (y mod 400 =? 0)).
Definition month_days (y m : Z) : Z :=
  if m =? 2 then (if leap y then 29 else 28)
  else if (m =? 4) || (m =? 6) || (m =? 9) || (m =? 11) then 30 else 31.

(** Days from January 1st of year 1 to January 1st of year [y], and from January 1st to the first of month [m]. *)
Definition days_to_year (y : Z) : Z := 365 * (y - 1) + (y - 1) / 4 - (y - 1) / 100 + (y - 1) / 400.
Fixpoint days_in_months (y : Z) (n : nat) : Z :=
  match n with O => 0 | S k => days_in_months y k + month_days y (Z.of_nat (S k)) end.
Definition days_to_month (y m : Z) : Z := days_in_months y (Z.to_nat (m - 1)).

(** Days and seconds since January 1st, 1970, of a date and time of day. *)
Definition day_number (y m d : Z) : Z := days_to_year y + days_to_month y m + (d - 1) - 719162.
Definition seconds (y m d h mi s : Z) : Z := day_number y m d * 86400 + h * 3600 + mi * 60 + s.

Definition valid_day (y m d : Z) : Prop := 1 <= m <= 12 /\ 1 <= d <= month_days y m.
Definition valid (y m d h mi s : Z) : Prop := valid_day y m d /\ 0 <= h <= 23 /\ 0 <= mi <= 59 /\ 0 <= s <= 59.

(** Sunday is 0; January 1st, 1970, was a Thursday. *)
Definition week_day (n : Z) : Z := (n + 4) mod 7.

Example calendar_sample : seconds 1970 1 1 0 0 0 = 0 /\ seconds 2024 2 29 23 59 58 = 1709251198 /\ week_day (day_number 2024 2 29) = 4
  /\ seconds 1901 12 13 20 45 52 = - 2 ^ 31 /\ seconds 1600 1 1 0 0 0 = - 11676096000.
Proof. vm_compute. repeat split. Qed.
