(** What the helpers of util.go, and the number and cookie getters, are for: small
    independent readings of the strings they produce or consume. *)
From Coq Require Import ZArith NArith.
From Verif Require Import Base.

(** ** Percent-encoding (RFC 3986, section 2.1) *)
Definition hex_val (c : ascii) : option N :=
  let n := N_of_ascii c in
  if ((48 <=? n) && (n <=? 57))%N then Some (n - 48)%N
  else if ((65 <=? n) && (n <=? 70))%N then Some (n - 55)%N
  else if ((97 <=? n) && (n <=? 102))%N then Some (n - 87)%N
  else None.
Fixpoint pct_decode (s : gostr) : option gostr :=
  match s with
  | [] => Some []
  | a :: s' =>
      if Ascii.eqb a "%" then
        match s' with
        | x :: y :: s'' =>
            match hex_val x, hex_val y, pct_decode s'' with
            | Some h, Some l, Some r => Some (ascii_of_N (16 * h + l) :: r)
            | _, _, _ => None
            end
        | _ => None
        end
      else match pct_decode s' with Some r => Some (a :: r) | None => None end
  end.

(** ** Hexadecimal numbers, and texts with two digits per byte *)
Definition hex_number (s : gostr) : option N :=
  match s with
  | [] => None
  | _ => fold_left (fun v c => match v, hex_val c with Some v, Some d => Some (16 * v + d)%N | _, _ => None end) s (Some 0%N)
  end.
Fixpoint hex_text (s : gostr) : option gostr :=
  match s with
  | [] => Some []
  | x :: y :: s' =>
      match hex_val x, hex_val y, hex_text s' with
      | Some h, Some l, Some r => Some (ascii_of_N (16 * h + l) :: r)
      | _, _, _ => None
      end
  | _ => None
  end.

(** bytes that have a meaning inside a header value or a quoted string, or that
    are not printable ASCII *)
Definition delicate (a : ascii) : Prop :=
  (N_of_ascii a <= 32)%N \/ (127 <= N_of_ascii a)%N \/
  a ∈ [","; ";"; """"; "'"; "\"; "/"; "("; ")"; "<"; ">"; "["; "]"; "{"; "}"; "?"; "*"]%char.

(** bytes that a name in a URL path or a header needs no encoding for *)
Definition plain_chars : gostr := L "-_.~$&+:=@0123456789ABCDEFGHIJKLMNOPQRSTUVWXYZabcdefghijklmnopqrstuvwxyz".

(** ** HTML text *)
Definition entities : list (gostr * ascii) :=
  [(L "&#34;", """"); (L "&#39;", "'"); (L "&amp;", "&"); (L "&lt;", "<"); (L "&gt;", ">")]%char.
(** [reads_as h t]: the HTML text h, using these entities only, denotes t *)
Inductive reads_as : gostr -> gostr -> Prop :=
  | reads_nil : reads_as [] []
  | reads_entity e c h t : (e, c) ∈ entities -> reads_as h t -> reads_as (e ++ h) (c :: t)
  | reads_plain c h t : c ∉ ["<"; ">"; "&"; """"; "'"]%char -> reads_as h t -> reads_as (c :: h) (c :: t).

(** ** Decimal numbers *)
Definition is_digit (c : ascii) : Prop := (48 <= N_of_ascii c <= 57)%N.
Definition digit_of (c : ascii) : Z := Z.of_N (N_of_ascii c) - 48.
(** the value of a string of digits, most significant first *)
Definition dec_value (s : gostr) : Z := fold_left (fun v c => v * 10 + digit_of c)%Z s 0%Z.
(** [decimal s z]: s writes z, optionally with a sign *)
Inductive decimal : gostr -> Z -> Prop :=
  | dec_plain s : s <> [] -> Forall is_digit s -> decimal s (dec_value s)
  | dec_plus s : s <> [] -> Forall is_digit s -> decimal ("+"%char :: s) (dec_value s)
  | dec_minus s : s <> [] -> Forall is_digit s -> decimal ("-"%char :: s) (- dec_value s).
(** the same without a sign *)
Definition udecimal (s : gostr) (z : Z) : Prop := s <> [] /\ Forall is_digit s /\ z = dec_value s.

Definition clamp (lo hi z : Z) : Z := Z.max lo (Z.min hi z).
Definition min64 : Z := - 2 ^ 63.
Definition max64 : Z := 2 ^ 63 - 1.
Definition maxu64 : Z := 2 ^ 64 - 1.
(** [overlong s]: s begins with a number of more than 64 bits *)
Definition overlong (s : gostr) : Prop :=
  exists p ds r, s = p ++ ds ++ r /\ p ∈ [[]; ["+"]; ["-"]]%char /\ Forall is_digit ds /\ (maxu64 < dec_value ds)%Z.

(** ** Paths *)
(** Where a path leads, starting at a directory (the list of names from the root
    down): a name goes one level down, .. one level up (the root is its own
    parent), empty and . segments stay. *)
Fixpoint walk (dir : list gostr) (segs : list gostr) : list gostr :=
  match segs with
  | [] => dir
  | x :: segs' =>
      if bool_decide (x = [] \/ x = L ".") then walk dir segs'
      else if bool_decide (x = L "..") then walk (take (length dir - 1) dir) segs'
      else walk (dir ++ [x]) segs'
  end.
(** a proper segment *)
Definition proper (x : gostr) : Prop := x <> [] /\ x <> L "." /\ x <> L ".." /\ "/"%char ∉ x.
