(** Model of [parseISODateTime] (src/frpc.cc 104-276). *)
From Verif Require Import Base Value Text M_Base64.

(** [while (sit != end && isspace/isdigit(..)) ++sit].  [isdigit] and [isspace] of a negative [char] are
    false with glibc. *)
Fixpoint skip (p : byte -> bool) (s : bytes) : bytes :=
  match s with
  | [] => []
  | c :: r => if p c then skip p r else s
  end.

(** At most [n] digits (the loops of frpc.cc 122-126 and so on): the digits and the rest. *)
Fixpoint take_digits (n : nat) (s : bytes) : bytes * bytes :=
  match n, s with
  | S k, c :: r => if is_digit c then let '(d, r') := take_digits k r in (c :: d, r') else ([], s)
  | _, _ => ([], s)
  end.

(** One optional delimiter. *)
Definition opt_char (p : byte -> bool) (s : bytes) : bytes :=
  match s with
  | c :: r => if p c then r else s
  | [] => []
  end.
Definition is_char (k : Z) (c : byte) : bool := b2z c =? k.

(** The time zone (frpc.cc 220-274): the sign character [sg] was read, [s] follows.  [None]: returned before the
    assignment of [timeZone]. *)
Definition parse_tz (sg : Z) (s : bytes) : option Z :=
  let finish h m s := match skip is_space s with
                      | [] => Some ((h * 60 + m) * (if sg =? 43 then - 60 else 60))
                      | _ => None
                      end in
  if (sg =? 90) || (sg =? 122) then finish 0 0 s
  else if (sg =? 43) || (sg =? 45) then
    let '(h, s1) := take_digits 2 s in
    match h with
    | [] => None
    | _ =>
        let '(m, s2) := take_digits 2 (opt_char (is_char 58) s1) in
        match m with
        | [] => None
        | _ => finish (undec h) (undec m) s2
        end
    end
  else finish 0 0 s.

(** The part after the date (frpc.cc 161-276): hour, minute, second and time zone. *)
Definition parse_time (s : bytes) : Z * Z * Z * Z :=
  let '(h, s1) := take_digits 2 s in
  match h with
  | [] => (0, 0, 0, 0)
  | _ =>
      let '(m, s2) := take_digits 2 (opt_char (is_char 58) s1) in
      match m with
      | [] => (undec h, 0, 0, 0)
      | _ =>
          let '(c, s3) := take_digits 2 (opt_char (is_char 58) s2) in
          match c with
          | [] => (undec h, undec m, 0, 0)
          | _ =>
              (* a fraction is skipped *)
              let s4 := match s3 with
                        | p :: r => if is_char 46 p then skip is_digit r else s3
                        | [] => []
                        end in
              let tz := match s4 with
                        | [] => parse_tz 0 []
                        | sg :: r => parse_tz (b2z sg) r
                        end in
              (undec h, undec m, undec c, match tz with Some z => z | None => 0 end)
          end
      end
  end.

(** [parseISODateTime] (frpc.cc 104-276): the week day and the unix time are what the callers add (-1, -1).  The numbers have
    at most four (year) or two digits, so that the conversions to [short] and [char] are exact. *)
Definition parse_iso (s : bytes) : res datetime :=
  let bad := Err (StreamError "Bad DATE format") in
  let '(y, s1) := take_digits 4 (skip is_space s) in
  match y with
  | [] => bad
  | _ =>
      let '(mo, s2) := take_digits 2 (opt_char (is_char 45) s1) in
      match mo with
      | [] => bad
      | _ =>
          let '(d, s3) := take_digits 2 (opt_char (is_char 45) s2) in
          match d with
          | [] => bad
          | _ =>
              let '(h, mi, c, tz) :=
                match s3 with
                | t :: r => if is_char 84 t || is_char 116 t || is_char 32 t then parse_time r else (0, 0, 0, 0)
                | [] => (0, 0, 0, 0)
                end in
              Ok (mkDT (undec y) (undec mo) (undec d) h mi c (-1) (-1) tz)
          end
      end
  end.
