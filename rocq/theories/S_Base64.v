(** Specification of Base64 after RFC 4648, section 4: groups of 24 bits, as numbers. *)
From Verif Require Import Base.

Definition rfc_alphabet : bytes := str "ABCDEFGHIJKLMNOPQRSTUVWXYZabcdefghijklmnopqrstuvwxyz0123456789+/".
Definition rfc_digit (n : Z) : byte := nth (Z.to_nat (n mod 64)) rfc_alphabet x00.

Fixpoint rfc4648 (s : bytes) : bytes :=
  match s with
  | [] => []
  | [a] => let n := b2z a * 65536 in
           [rfc_digit (n / 262144); rfc_digit (n / 4096)] ++ str "=="
  | [a; b] => let n := b2z a * 65536 + b2z b * 256 in
              [rfc_digit (n / 262144); rfc_digit (n / 4096); rfc_digit (n / 64)] ++ str "="
  | a :: b :: c :: r =>
      let n := b2z a * 65536 + b2z b * 256 + b2z c in
      [rfc_digit (n / 262144); rfc_digit (n / 4096); rfc_digit (n / 64); rfc_digit n] ++ rfc4648 r
  end.

(** White space inside the text does not count. *)
Definition blank (c : byte) : bool := ((9 <=? b2z c) && (b2z c <=? 13)) || (b2z c =? 32).
Definition squeeze (s : bytes) : bytes := filter (fun c => negb (blank c)) s.

(** The lines of a text (CR LF line ends). *)
Fixpoint line_lengths (cur : Z) (s : bytes) : list Z :=
  match s with
  | [] => [cur]
  | c :: r => match r with
              | d :: r' => if (b2z c =? 13) && (b2z d =? 10) then cur :: line_lengths 0 r' else line_lengths (cur + 1) r
              | [] => line_lengths (cur + 1) r
              end
  end.
