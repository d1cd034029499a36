(** The obsolete forms of dates of RFC 7231, 7.1.1.1. *)
From Verif Require Import Base GoStr DateSpec.
Local Open Scope Z_scope.

Definition long_day (k : Z) (s : gostr) : Prop :=
  (k mod 7, s) ∈ [(0, L "Thursday"); (1, L "Friday"); (2, L "Saturday"); (3, L "Sunday"); (4, L "Monday"); (5, L "Tuesday"); (6, L "Wednesday")].
(** hours, minutes and seconds of the second n of a day *)
Definition time_of_day (n : Z) (s : gostr) : Prop :=
  exists hh mm ss hs ms sc, 0 <= hh < 24 /\ 0 <= mm < 60 /\ 0 <= ss < 60 /\ n = 3600 * hh + 60 * mm + ss /\
    decimal 2 hh hs /\ decimal 2 mm ms /\ decimal 2 ss sc /\ s = hs ++ L ":" ++ ms ++ L ":" ++ sc.

(** s is the rfc850-date of the moment t seconds after the start of 1970, which is in
    the years 1969 to 2068: two digits of the year are written *)
Definition rfc850_date (s : gostr) (t : Z) : Prop :=
  exists k n y m d wd mo ds ys tod, falls k (y, m, d) /\ t = 86400 * k + n /\ 1969 <= y <= 2068 /\
    long_day k wd /\ month_name m mo /\ decimal 2 d ds /\ decimal 2 (y mod 100) ys /\ time_of_day n tod /\
    s = wd ++ L ", " ++ ds ++ L "-" ++ mo ++ L "-" ++ ys ++ L " " ++ tod ++ L " GMT".

(** s is the asctime-date of t; a day has two digits, or a space and a digit *)
Definition asctime_date (s : gostr) (t : Z) : Prop :=
  exists k n y m d wd mo ds ys tod, falls k (y, m, d) /\ t = 86400 * k + n /\
    day_name k wd /\ month_name m mo /\ (decimal 2 d ds \/ exists c, decimal 1 d c /\ ds = L " " ++ c) /\
    decimal 4 y ys /\ time_of_day n tod /\
    s = wd ++ L " " ++ mo ++ L " " ++ ds ++ L " " ++ tod ++ L " " ++ ys.

(** the three forms of HTTP-date *)
Definition any_date (s : gostr) (t : Z) : Prop := fixdate s t \/ rfc850_date s t \/ asctime_date s t.
