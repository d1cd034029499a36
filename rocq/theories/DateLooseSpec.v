(** The dates that net/http reads: fixdates (DateSpec) with some freedom. *)
From Verif Require Import Base GoStr DateSpec.
Local Open Scope Z_scope.

(** the same byte, or the same letter in the other case *)
Definition either_case (a b : ascii) : Prop :=
  let x := Z.of_nat (nat_of_ascii a) in let y := Z.of_nat (nat_of_ascii b) in
  a = b \/ 65 <= x <= 90 /\ y = x + 32 \/ 65 <= y <= 90 /\ x = y + 32.
Definition spaces (w : gostr) : Prop := w <> [] /\ Forall (fun a => a = " "%char) w.
(** a part of a second, which does not count *)
Definition second_fraction (p : gostr) : Prop :=
  p = [] \/ exists d, p = L "." ++ d /\ d <> [] /\ Forall (fun c => (48 <= nat_of_ascii c <= 57)%nat) d.
(** Names in either case, that of any day; any number of spaces; hours with one digit;
    parts of seconds. *)
Definition loose_date (s : gostr) (t : Z) : Prop :=
  exists k y m d hh mm ss k' wn wd mn mo ds ys hs ms sc fr w1 w2 w3 w4 w5,
    falls k (y, m, d) /\ 0 <= hh < 24 /\ 0 <= mm < 60 /\ 0 <= ss < 60 /\
    t = 86400 * k + 3600 * hh + 60 * mm + ss /\
    day_name k' wn /\ Forall2 either_case wn wd /\ month_name m mn /\ Forall2 either_case mn mo /\
    decimal 2 d ds /\ decimal 4 y ys /\ (decimal 1 hh hs \/ decimal 2 hh hs) /\ decimal 2 mm ms /\ decimal 2 ss sc /\
    second_fraction fr /\ Forall spaces [w1; w2; w3; w4; w5] /\
    s = wd ++ L "," ++ w1 ++ ds ++ w2 ++ mo ++ w3 ++ ys ++ w4 ++ hs ++ L ":" ++ ms ++ L ":" ++ sc ++ fr ++ w5 ++ L "GMT".
