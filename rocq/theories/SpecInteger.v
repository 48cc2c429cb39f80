(** SpecInteger.v -- how Python's int() reads a text *)
From Verif Require Import Base.

(** Decimal digits in any script; every script has ten in a row (Unicode 14). *)
Definition zeros : list N :=
  [48; 1632; 1776; 1984; 2406; 2534; 2662; 2790; 2918; 3046; 3174; 3302; 3430; 3558; 3664; 3792; 3872; 4160; 4240; 6112; 6160;
   6470; 6608; 6784; 6800; 6992; 7088; 7232; 7248; 42528; 43216; 43264; 43472; 43504; 43600; 44016; 65296; 66720; 68912; 69734;
   69872; 69942; 70096; 70384; 70736; 70864; 71248; 71360; 71472; 71904; 72016; 72784; 73040; 73120; 92768; 92864; 93008; 120782;
   120792; 120802; 120812; 120822; 123200; 123632; 125264; 130032]%N.
Definition digit_of (c d : N) : Prop := exists z, In z zeros /\ (c = z + d)%N /\ (d < 10)%N.
(** digits, with single underscores between them *)
Inductive digits_of : str -> N -> Prop :=
| digits_first c d : digit_of c d -> digits_of [c] d
| digits_next s n c d : digits_of s n -> digit_of c d -> digits_of (s ++ [c]) (10 * n + d)
| digits_next_ s n c d : digits_of s n -> digit_of c d -> digits_of (s ++ "_" ++ [c]) (10 * n + d).
(** a sign, if any *)
Inductive signed : str -> N -> Z -> Prop :=
| signed_none n : signed [] n (Z.of_N n)
| signed_plus n : signed "+" n (Z.of_N n)
| signed_minus n : signed "-" n (- Z.of_N n).
(** white space around the number *)
Definition int_blank (c : N) : Prop :=
  In c [9; 10; 11; 12; 13; 32; 133; 160; 5760; 8192; 8193; 8194; 8195; 8196; 8197; 8198; 8199; 8200;
        8201; 8202; 8232; 8233; 8239; 8287; 12288]%N.
Definition integer_text (s : str) (z : Z) : Prop :=
  exists before sign digits after n,
    s = before ++ sign ++ digits ++ after /\ Forall int_blank before /\ Forall int_blank after
    /\ digits_of digits n /\ signed sign n z.

(** How a natural number is written in decimal: no zeros in front. *)
Inductive numeral : str -> N -> Prop :=
| numeral_digit d : (d < 10)%N -> numeral [48 + d]%N d
| numeral_more s n d : numeral s n -> n <> 0%N -> (d < 10)%N -> numeral (s ++ [48 + d]%N) (10 * n + d).
