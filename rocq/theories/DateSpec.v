(** The calendar, by its days: after each day the next. *)
From Verif Require Import Base GoStr.
Local Open Scope Z_scope.

Definition leap (y : Z) : Prop := (4 | y) /\ (~ (100 | y) \/ (400 | y)).
(** Thirty days has September, April, June and November *)
Inductive month_has (y : Z) : Z -> Z -> Prop :=
  | mh_30 m : m ∈ [4; 6; 9; 11] -> month_has y m 30
  | mh_31 m : m ∈ [1; 3; 5; 7; 8; 10; 12] -> month_has y m 31
  | mh_28 : ~ leap y -> month_has y 2 28
  | mh_29 : leap y -> month_has y 2 29.
(** from one day to the next *)
Inductive tomorrow : Z * Z * Z -> Z * Z * Z -> Prop :=
  | to_day y m d n : month_has y m n -> 1 <= d < n -> tomorrow (y, m, d) (y, m, d + 1)
  | to_month y m n : month_has y m n -> m < 12 -> tomorrow (y, m, n) (y, m + 1, 1)
  | to_year y : tomorrow (y, 12, 31) (y + 1, 1, 1).
(** the day number k, where 1 January 1970 has the number 0 *)
Inductive falls : Z -> Z * Z * Z -> Prop :=
  | fa_epoch : falls 0 (1970, 1, 1)
  | fa_next k D D' : falls k D -> tomorrow D D' -> falls (k + 1) D'
  | fa_prev k D D' : falls (k + 1) D' -> tomorrow D D' -> falls k D.

(** Numbers in decimal digits *)
Inductive decimal : nat -> Z -> gostr -> Prop :=
  | de_0 : decimal 0 0 []
  | de_S n x s c : decimal n x s -> (48 <= nat_of_ascii c <= 57)%nat ->
      decimal (S n) (10 * x + (Z.of_nat (nat_of_ascii c) - 48)) (s ++ [c]).

(** The names; 1 January 1970 was a Thursday *)
Definition day_name (k : Z) (s : gostr) : Prop :=
  (k mod 7, s) ∈ [(0, L "Thu"); (1, L "Fri"); (2, L "Sat"); (3, L "Sun"); (4, L "Mon"); (5, L "Tue"); (6, L "Wed")].
Definition month_name (m : Z) (s : gostr) : Prop :=
  (m, s) ∈ [(1, L "Jan"); (2, L "Feb"); (3, L "Mar"); (4, L "Apr"); (5, L "May"); (6, L "Jun");
            (7, L "Jul"); (8, L "Aug"); (9, L "Sep"); (10, L "Oct"); (11, L "Nov"); (12, L "Dec")].

(** s is the IMF-fixdate (RFC 7231, 7.1.1.1) of the moment t seconds after the start
    of 1970 *)
Definition fixdate (s : gostr) (t : Z) : Prop :=
  exists k y m d hh mm ss wd mo ds ys hs ms sc,
    falls k (y, m, d) /\ 0 <= hh < 24 /\ 0 <= mm < 60 /\ 0 <= ss < 60 /\
    t = 86400 * k + 3600 * hh + 60 * mm + ss /\
    day_name k wd /\ month_name m mo /\ decimal 2 d ds /\ decimal 4 y ys /\
    decimal 2 hh hs /\ decimal 2 mm ms /\ decimal 2 ss sc /\
    s = wd ++ L ", " ++ ds ++ L " " ++ mo ++ L " " ++ ys ++ L " " ++ hs ++ L ":" ++ ms ++ L ":" ++ sc ++ L " GMT".
(** the years 0 to 9999: 1 January 0 and 1 January 10000, at the start of the day *)
Definition four_digits (t : Z) : Prop :=
  exists a b, falls a (0, 1, 1) /\ falls b (10000, 1, 1) /\ 86400 * a <= t < 86400 * b.

(** The request has the condition k with the value s and no other. *)
Definition only_condition (h : gostr -> gostr) (k s : gostr) : Prop :=
  h k = s /\ forall k', k' ∈ [L "If-Match"; L "If-None-Match"; L "If-Modified-Since"; L "If-Unmodified-Since"; L "If-Range"] -> k' <> k -> h k' = [].
