(** The two other forms of dates that net/http understands (Go 1.15, go.mod:3), in the
    headers read by http.ServeContent and http.ServeFile (content.go:226, 238 and
    m_static.go:108, see NetDate.v). *)
From Verif Require Import Base GoStr NetDate.
Local Open Scope Z_scope.

(** time/format.go: longDayNames *)
Definition longDayNames : list gostr :=
  [L "Sunday"; L "Monday"; L "Tuesday"; L "Wednesday"; L "Thursday"; L "Friday"; L "Saturday"].

Section Old.
(** The moment meant by a time that is followed by the name of a zone other than GMT and
    UTC; it depends on the zone of the process (zoneinfo.go: lookupName) and is not
    modelled. *)
Variable zoned : gostr -> Z -> option Z.

(** time/format.go: Parse, checks of the fields, and the moment; as in
    NetDate.parse_fixdate *)
Definition moment (year month day hour mins sec : Z) : option Z :=
  if (24 <=? hour) || (60 <=? mins) || (60 <=? sec) || (day <? 1) || (daysIn month year <? day) then None
  else Some ((absDays year month day - epoch) * 86400 + hour * 3600 + mins * 60 + sec).

(** time/format.go: atoi of two characters: a sign may stand for the first digit *)
Definition getyy (s : gostr) : option (Z * gostr) :=
  match s with
  | a :: b :: rest =>
      match digit_val b with
      | None => None
      | Some y =>
          match digit_val a with
          | Some x => Some (10 * x + y, rest)
          | None => if Ascii.eqb a "+" then Some (y, rest) else if Ascii.eqb a "-" then Some (- y, rest) else None
          end
      end
  | _ => None
  end.

(** time/format.go: Parse with the layout RFC850 = "Monday, 02-Jan-06 15:04:05 MST";
    two digits of a year from 69 on are of the years 19xx *)
Definition parse_rfc850 (s : gostr) : option Z :=
  match lookup_name longDayNames 0 s with None => None | Some (_, s) =>
  match skip (L ", ") s with None => None | Some s =>
  match getnum s true with None => None | Some (day, s) =>
  match skip (L "-") s with None => None | Some s =>
  match lookup_name shortMonthNames 1 s with None => None | Some (month, s) =>
  match skip (L "-") s with None => None | Some s =>
  match getyy s with None => None | Some (yy, s) =>
  let year := if 69 <=? yy then 1900 + yy else 2000 + yy in
  match skip (L " ") s with None => None | Some s =>
  match getnum s false with None => None | Some (hour, s) =>
  match skip (L ":") s with None => None | Some s =>
  match getnum s true with None => None | Some (mins, s) =>
  match skip (L ":") s with None => None | Some s =>
  match getnum s true with None => None | Some (sec, s) =>
  match skip (L " ") (fraction s) with None => None | Some s =>
  match moment year month day hour mins sec with None => None | Some t =>
    if seqb s (L "GMT") || seqb s (L "UTC") then Some t else zoned s t
  end end end end end end end end end end end end end end end.

(** time/format.go: Parse with the layout ANSIC = "Mon Jan _2 15:04:05 2006".  The space
    that may stand for the first digit of the day is cut with the one before it. *)
Definition parse_asctime (s : gostr) : option Z :=
  match lookup_name shortDayNames 0 s with None => None | Some (_, s) =>
  match skip (L " ") s with None => None | Some s =>
  match lookup_name shortMonthNames 1 s with None => None | Some (month, s) =>
  match skip (L " ") s with None => None | Some s =>
  match getnum s false with None => None | Some (day, s) =>
  match skip (L " ") s with None => None | Some s =>
  match getnum s false with None => None | Some (hour, s) =>
  match skip (L ":") s with None => None | Some s =>
  match getnum s true with None => None | Some (mins, s) =>
  match skip (L ":") s with None => None | Some s =>
  match getnum s true with None => None | Some (sec, s) =>
  match skip (L " ") (fraction s) with None => None | Some s =>
  match getyear s with
  | Some (year, []) => moment year month day hour mins sec
  | _ => None
  end end end end end end end end end end end end end.

(** net/http/header.go: ParseTime, the second and the third of timeFormats *)
Definition net_parse_old (s : gostr) : option Z :=
  match parse_rfc850 s with Some t => Some t | None => parse_asctime s end.
End Old.
