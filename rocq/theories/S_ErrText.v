(** Specification: what the texts of errors say. *)
From Verif Require Import Base Value Text S_Containers.

(** How the library calls types, in the documentation of [checkItems]. *)
Definition called (a : letter) : bytes :=
  match a with
  | L_int => str "int" | L_string => str "string" | L_double => str "double" | L_bool => str "bool"
  | L_datetime => str "dateTime" | L_binary => str "binary" | L_struct => str "struct" | L_array => str "array"
  end.
(** "Parameter 3 must be int not string." *)
Definition says_parameter (number : Z) (wanted got : bytes) : bytes :=
  str "Parameter " ++ dec number ++ str " must be " ++ wanted ++ str " not " ++ got ++ str ".".
Definition says_range (index size : Z) : bytes := str "index " ++ dec_signed index ++ str " is out of range 0 - " ++ dec_signed size ++ str ".".
Definition says_key (k : bytes) : bytes := str "Key """ ++ k ++ str """ does not exist.".
(** How many of the letters allow null. *)
Definition nullable (f : list (letter * bool)) : Z := zlen (filter snd f).
