(** SpecDateTime.v -- the documented timestamp shape
    YYYY-MM-DDTHH:MM:SS.mmm+HH:MM *)
From Verif Require Import Base DateTime.

(** The [k] lowest decimal digits of [n], most significant first. *)
Fixpoint digits (k : nat) (n : N) : str :=
  match k with
  | O => []
  | S k' => digits k' (n / 10) ++ [(48 + n mod 10)%N]
  end.

Record valid (d : datetime) : Prop := {
  v_month : (1 <= month d <= 12)%N;
  v_day : (1 <= day d <= 31)%N;
  v_hour : (hour d < 24)%N;
  v_minute : (minute d < 60)%N;
  v_second : (second d < 60)%N;
  v_microsecond : (microsecond d < 1000000)%N;
  v_offset : match utcoffset d with Some o => (Z.abs o < 86400000000)%Z | None => True end }.

(** an offset of [m] minutes *)
Definition minutes (m : Z) : Z := (m * 60000000)%Z.

(** the documented text for offset [m] minutes *)
Definition timestamp (d : datetime) (m : Z) : str :=
  digits 4 (year d) ++ "-" ++ digits 2 (month d) ++ "-" ++ digits 2 (day d)
  ++ "T" ++ digits 2 (hour d) ++ ":" ++ digits 2 (minute d) ++ ":" ++ digits 2 (second d)
  ++ "." ++ digits 3 (microsecond d / 1000)
  ++ (if Z.ltb m 0 then "-" else "+")
  ++ digits 2 (Z.abs_N m / 60) ++ ":" ++ digits 2 (Z.abs_N m mod 60).
