(** The dates of net/http, which water's files carry (content.go:226, 238 (Download,
    Attachment) and m_static.go:108, by http.ServeContent, and content.go (File,
    ServeFile), by http.ServeFile; Go 1.15, go.mod:3): Last-Modified is written with
    Time.Format and If-Modified-Since, If-Unmodified-Since and If-Range are read
    with http.ParseTime. *)
From Verif Require Import Base GoStr.
Local Open Scope Z_scope.

(** time.go: isLeap, daysBefore, daysIn *)
Definition isLeap (y : Z) : bool := (y mod 4 =? 0) && (negb (y mod 100 =? 0) || (y mod 400 =? 0)).
Definition daysBefore : list Z := [0; 31; 59; 90; 120; 151; 181; 212; 243; 273; 304; 334; 365].
Definition before (m : Z) : Z := nth (Z.to_nat m) daysBefore 0.
Definition daysIn (m y : Z) : Z := if (m =? 2) && isLeap y then 29 else before m - before (m - 1).

(** time.go: absDate, for a count of days.  Go counts from the year -292277022399 and
    adds that number to the year in the end; here days count from the year 1, which
    is later by a multiple of 400 years, and division rounds down.  Overflow of 64
    bits, billions of years away, is not modelled. *)
Definition absDate (d0 : Z) : Z * Z * Z :=
  let n := d0 / 146097 in let y := 400 * n in let d := d0 - 146097 * n in
  let n := d / 36524 in let n := n - n / 4 in let y := y + 100 * n in let d := d - 36524 * n in
  let n := d / 1461 in let y := y + 4 * n in let d := d - 1461 * n in
  let n := d / 365 in let n := n - n / 4 in let y := y + n in let d := d - 365 * n in
  let year := y + 1 in
  if isLeap year && (d =? 59) then (year, 2, 29)
  else
    let day := if isLeap year && (59 <? d) then d - 1 else d in
    let m := day / 31 in
    let e := before (m + 1) in
    if e <=? day then (year, m + 2, day - e + 1) else (year, m + 1, day - before m + 1).

(** time.go: Date, the days from the start of the year 1; as above.  The month is in
    its range here. *)
Definition absDays (year month day : Z) : Z :=
  let y := year - 1 in
  let n := y / 400 in let y := y - 400 * n in let d := 146097 * n in
  let n := y / 100 in let y := y - 100 * n in let d := d + 36524 * n in
  let n := y / 4 in let y := y - 4 * n in let d := d + 1461 * n in
  let d := d + 365 * y in
  let d := d + before (month - 1) in
  let d := if isLeap year && (3 <=? month) then d + 1 else d in
  d + (day - 1).

(** the days from the start of the year 1 to that of 1970 *)
Definition epoch : Z := 719162.

Definition shortDayNames : list gostr := [L "Sun"; L "Mon"; L "Tue"; L "Wed"; L "Thu"; L "Fri"; L "Sat"].
Definition shortMonthNames : list gostr :=
  [L "Jan"; L "Feb"; L "Mar"; L "Apr"; L "May"; L "Jun"; L "Jul"; L "Aug"; L "Sep"; L "Oct"; L "Nov"; L "Dec"].

(** format.go: appendInt with width 2 and 4, for numbers that fit: years below 0 and
    above 9999 are not modelled *)
Definition digit (n : Z) : ascii := ascii_of_nat (Z.to_nat (48 + n mod 10)).
Definition append2 (n : Z) : gostr := [digit (n / 10); digit n].
Definition append4 (n : Z) : gostr := [digit (n / 1000); digit (n / 100); digit (n / 10); digit n].

(** format.go: Format, with the layout http.TimeFormat = "Mon, 02 Jan 2006 15:04:05 GMT",
    for t seconds after the start of 1970 in UTC (fs.go: setLastModified) *)
Definition net_date (t : Z) : gostr :=
  let d := t / 86400 + epoch in
  let s := t mod 86400 in
  let '(year, month, day) := absDate d in
  nth (Z.to_nat ((d + 1) mod 7)) shortDayNames [] ++ L ", " ++ append2 day ++ L " " ++
  nth (Z.to_nat (month - 1)) shortMonthNames [] ++ L " " ++ append4 year ++ L " " ++
  append2 (s / 3600) ++ L ":" ++ append2 (s mod 3600 / 60) ++ L ":" ++ append2 (s mod 60) ++ L " GMT".

(** format.go: isDigit, getnum, atoi for four characters *)
Definition digit_val (c : ascii) : option Z :=
  let n := Z.of_nat (nat_of_ascii c) in if (48 <=? n) && (n <=? 57) then Some (n - 48) else None.
Definition getnum (s : gostr) (fixed : bool) : option (Z * gostr) :=
  match s with
  | [] => None
  | a :: s1 =>
      match digit_val a with
      | None => None
      | Some x =>
          match s1 with
          | [] => if fixed then None else Some (x, s1)
          | b :: s2 =>
              match digit_val b with
              | Some y => Some (10 * x + y, s2)
              | None => if fixed then None else Some (x, s1)
              end
          end
      end
  end.
Definition getyear (s : gostr) : option (Z * gostr) :=
  match s with
  | a :: b :: c :: d :: rest =>
      match digit_val a, digit_val b, digit_val c, digit_val d with
      | Some w, Some x, Some y, Some z => Some (1000 * w + 100 * x + 10 * y + z, rest)
      | _, _, _, _ => None
      end
  | _ => None
  end.

(** format.go: match, lookup: names in either case *)
Definition same_letter (a b : ascii) : bool :=
  let x := Z.of_nat (nat_of_ascii a) in let y := Z.of_nat (nat_of_ascii b) in
  (x =? y) ||
  (let x := Z.lor x 32 in let y := Z.lor y 32 in (x =? y) && (97 <=? x) && (x <=? 122)).
Fixpoint match_name (name s : gostr) : option gostr :=
  match name, s with
  | [], _ => Some s
  | a :: name', b :: s' => if same_letter a b then match_name name' s' else None
  | _, [] => None
  end.
Fixpoint lookup_name (tab : list gostr) (i : Z) (s : gostr) : option (Z * gostr) :=
  match tab with
  | [] => None
  | n :: tab' => match match_name n s with Some r => Some (i, r) | None => lookup_name tab' (i + 1) s end
  end.

(** format.go: skip: a space in the layout stands for any number of spaces *)
Fixpoint cutspace (s : gostr) : gostr :=
  match s with a :: s' => if Ascii.eqb a " " then cutspace s' else s | [] => [] end.
Fixpoint skip (prefix value : gostr) : option gostr :=
  match prefix with
  | [] => Some value
  | p :: prefix' =>
      if Ascii.eqb p " " then
        match value with
        | v :: _ => if Ascii.eqb v " " then skip prefix' (cutspace value) else None
        | [] => skip prefix' []
        end
      else match value with
           | v :: value' => if Ascii.eqb v p then skip prefix' value' else None
           | [] => None
           end
  end.

(** format.go: Parse, a fraction behind the seconds, which the comparisons of net/http
    with whole seconds do not see: it is read and dropped *)
Fixpoint drop_digits (s : gostr) : gostr :=
  match s with a :: s' => match digit_val a with Some _ => drop_digits s' | None => s end | [] => [] end.
Definition fraction (s : gostr) : gostr :=
  match s with
  | "."%char :: (a :: s') => match digit_val a with Some _ => drop_digits s' | None => s end
  | _ => s
  end.

(** format.go: Parse with the layout http.TimeFormat: seconds after the start of 1970.
    The name of the day is not compared with the date. *)
Definition parse_fixdate (s : gostr) : option Z :=
  match lookup_name shortDayNames 0 s with None => None | Some (_, s) =>
  match skip (L ", ") s with None => None | Some s =>
  match getnum s true with None => None | Some (day, s) =>
  match skip (L " ") s with None => None | Some s =>
  match lookup_name shortMonthNames 1 s with None => None | Some (month, s) =>
  match skip (L " ") s with None => None | Some s =>
  match getyear s with None => None | Some (year, s) =>
  match skip (L " ") s with None => None | Some s =>
  match getnum s false with None => None | Some (hour, s) =>
  match skip (L ":") s with None => None | Some s =>
  match getnum s true with None => None | Some (mins, s) =>
  match skip (L ":") s with None => None | Some s =>
  match getnum s true with None => None | Some (sec, s) =>
  match skip (L " GMT") (fraction s) with
  | Some [] =>
      if (24 <=? hour) || (60 <=? mins) || (60 <=? sec) || (day <? 1) || (daysIn month year <? day) then None
      else Some ((absDays year month day - epoch) * 86400 + hour * 3600 + mins * 60 + sec)
  | _ => None
  end end end end end end end end end end end end end end.

(** net/http/header.go: ParseTime; [other] is Parse with the layouts time.RFC850 and
    time.ANSIC, which are not modelled *)
Definition net_parse_time (other : gostr -> option Z) (s : gostr) : option Z :=
  match parse_fixdate s with Some t => Some t | None => other s end.
