(** * Specification: UTF-8 *)
From Verif Require Import Base.

(** The bytes of a character. *)
Definition utf8_char (c : N) : list N :=
  (if c <? 128 then [c]
   else if c <? 2048 then [192 + c / 64; 128 + c mod 64]
   else if c <? 65536 then [224 + c / 4096; 128 + (c / 64) mod 64; 128 + c mod 64]
   else [240 + c / 262144; 128 + (c / 4096) mod 64; 128 + (c / 64) mod 64; 128 + c mod 64])%N.
Definition utf8 (t : list N) : string := string_of_list_ascii (map ascii_of_N (flat_map utf8_char t)).
(** A text of Unicode: code points without surrogates. *)
Definition scalar (c : N) : Prop := (c < 55296 \/ 57344 <= c < 1114112)%N.
Definition unicode (t : list N) : Prop := forall c, In c t -> scalar c.
(** The contents of a file are a text. *)
Definition is_utf8 (f : string) : Prop := exists t, unicode t /\ utf8 t = f.
