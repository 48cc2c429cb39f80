(** DateTime.v -- helpers/reqif_datetime.py *)
From Verif Require Import Base.

(** The fields of a [datetime] object; [utcoffset] in microseconds, [None] for a
    naive object.  Python keeps the fields in range and the offset strictly
    between -24 and 24 hours; see [valid] in SpecDateTime.v. *)
Record datetime := DateTime {
  year : N; month : N; day : N; hour : N; minute : N; second : N; microsecond : N;
  utcoffset : option Z }.

(** "%0<k>d" % n *)
Definition pad (k : nat) (n : N) : str :=
  let s := str_of_N n in repeat 48%N (k - length s) ++ s.

(** %z: the standard library's format_utcoffset with an empty separator *)
Definition strftime_z (o : option Z) : str :=
  match o with
  | None => []
  | Some z =>
      let a := Z.abs_N z in
      let us := (a mod 1000000)%N in
      let s := (a / 1000000)%N in
      (if Z.ltb z 0 then "-" else "+")
      ++ pad 2 (s / 3600) ++ pad 2 (s / 60 mod 60)
      ++ (if N.eqb us 0
          then if N.eqb (s mod 60) 0 then [] else pad 2 (s mod 60)
          else pad 2 (s mod 60) ++ "." ++ pad 6 us)
  end.
(** datetime_obj.strftime("%Y-%m-%dT%H:%M:%S.%f%z"), reqif_datetime.py:35.
    Assumption on the platform: "%Y" does not pad (glibc). *)
Definition strftime (d : datetime) : str :=
  str_of_N (year d) ++ "-" ++ pad 2 (month d) ++ "-" ++ pad 2 (day d)
  ++ "T" ++ pad 2 (hour d) ++ ":" ++ pad 2 (minute d) ++ ":" ++ pad 2 (second d)
  ++ "." ++ pad 6 (microsecond d) ++ strftime_z (utcoffset d).

(** s[-5:-2] and s[-2:] (out of range positions are clamped) *)
Definition slice_5_2 (s : str) : str := skipn (length s - 5) (firstn (length s - 2) s).
(** s[-2:], reqif_datetime.py:28-39 *)
Definition slice_2 (s : str) : str := skipn (length s - 2) s.

(** reqif_datetime_format, reqif_datetime.py:28-39 *)
Definition reqif_datetime_format (d : datetime) : str :=
  let f := strftime d in firstn 23 f ++ slice_5_2 f ++ ":" ++ slice_2 f.

(** create_reqif_datetime_now, reqif_datetime.py:5-25.  The clock and the
    platform are parameters: tm_isdst, time.timezone and time.altzone (seconds
    west of UTC) and [now], the datetime of this moment for a given offset. *)
Definition create_reqif_datetime_now (tm_isdst : Z) (timezone altzone : Z) (now : Z -> datetime) : str :=
  let utc_offset := if Z.eqb tm_isdst 0 then (- timezone)%Z else (- altzone)%Z in
  reqif_datetime_format (now (utc_offset * 1000000)%Z).
