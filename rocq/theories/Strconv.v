(** The parts of Go's [strconv] and of [fmt]'s %d / %x verbs that water uses
    (Go standard library, 64-bit platform).  Integers are mathematical; every
    place where the Go code wraps or clamps is written out. *)
From Coq Require Export ZArith NArith.
From Verif Require Import Base GoStr.

(** ** Formatting *)

(** digits of n in base b, most significant first; [fuel] bounds the number of
    digits and [digits] below always supplies enough. *)
Fixpoint digits_fuel (fuel : nat) (b n : N) : list N :=
  match fuel with
  | O => []
  | S f => if (n <? b)%N then [n] else digits_fuel f b (n / b)%N ++ [(n mod b)%N]
  end.
Definition digits (b n : N) : list N := digits_fuel (S (N.size_nat n)) b n.

(** digit characters 0-9a-f *)
Definition digit_char (d : N) : ascii :=
  if (d <? 10)%N then ascii_of_N (48 + d) else ascii_of_N (87 + d).

Definition format_N (b n : N) : gostr := map digit_char (digits b n).

(** strconv.FormatInt / strconv.Itoa: base-b digits with a leading minus. *)
Definition format_Z (b : N) (z : Z) : gostr :=
  match z with
  | Zneg p => "-"%char :: format_N b (Npos p)
  | _ => format_N b (Z.to_N z)
  end.
Definition itoa (z : Z) : gostr := format_Z 10 z.
Definition itoa_nat (n : nat) : gostr := format_N 10 (N.of_nat n).

(** fmt's %x applied to a string: two lower-case hex digits per byte. *)
Definition hex_byte (a : ascii) : gostr :=
  let n := N_of_ascii a in [digit_char (n / 16); digit_char (n mod 16)].
Definition hex_string (s : gostr) : gostr := flat_map hex_byte s.

(** ** Parsing *)

(** The error values of strconv, as far as water distinguishes them. *)
Inductive numerr := ErrNone | ErrSyntax | ErrRange.

(** the digit value of a character as in ParseUint; None: not alphanumeric *)
Definition digit_val (c : ascii) : option N :=
  let n := N_of_ascii c in
  if ((48 <=? n) && (n <=? 57))%N then Some (n - 48)%N
  else let l := N_of_ascii (lower_byte c) in
       if ((97 <=? l) && (l <=? 122))%N then Some (l - 97 + 10)%N else None.

(** strconv.ParseUint(s, 10, bits), the digit loop; acc is the value so far.
    [cutoff] is maxUint64/10 + 1. *)
Definition cutoff10 : N := 1844674407370955162.
Fixpoint parse_uint_loop (maxVal : N) (acc : N) (s : gostr) : N * numerr :=
  match s with
  | [] => (acc, ErrNone)
  | c :: s' =>
      match digit_val c with
      | None => (0%N, ErrSyntax)
      | Some d =>
          if (10 <=? d)%N then (0%N, ErrSyntax)
          else if (cutoff10 <=? acc)%N then (maxVal, ErrRange)
          else let n := (acc * 10)%N in
               (* n1 = n + d in uint64: it wrapped iff n + d >= 2^64 *)
               let n1 := ((n + d) mod 2 ^ 64)%N in
               if ((n1 <? n) || (maxVal <? n1))%N then (maxVal, ErrRange)
               else parse_uint_loop maxVal n1 s'
      end
  end.
Definition parse_uint (bits : N) (s : gostr) : N * numerr :=
  match s with
  | [] => (0%N, ErrSyntax)
  | _ => parse_uint_loop (2 ^ bits - 1)%N 0 s
  end.

(** strconv.ParseInt(s, 10, bits) *)
Definition parse_int (bits : N) (s : gostr) : Z * numerr :=
  match s with
  | [] => (0%Z, ErrSyntax)
  | c :: s' =>
      let neg := Ascii.eqb c "-" in
      let body := if Ascii.eqb c "+" || neg then s' else s in
      match parse_uint bits body with
      | (_, ErrSyntax) => (0%Z, ErrSyntax)
      | (un, _) =>
          let cutoff := (2 ^ (bits - 1))%N in
          if negb neg && (cutoff <=? un)%N then (Z.of_N cutoff - 1, ErrRange)%Z
          else if neg && (cutoff <? un)%N then (- Z.of_N cutoff, ErrRange)%Z
          else ((if neg then - Z.of_N un else Z.of_N un)%Z, ErrNone)
      end
  end.

(** strconv.Atoi on a 64-bit platform: fast path for short strings. *)
Fixpoint atoi_loop (n : Z) (s : gostr) : option Z :=
  match s with
  | [] => Some n
  | c :: s' =>
      (* ch -= '0' on bytes, then ch > 9 *)
      let d := ((N_of_ascii c + 256 - 48) mod 256)%N in
      if (9 <? d)%N then None else atoi_loop (n * 10 + Z.of_N d)%Z s'
  end.
Definition atoi (s : gostr) : Z * numerr :=
  if ((0 <? length s) && (length s <? 19))%nat then
    match s with
    | [] => (0%Z, ErrSyntax)
    | c :: s' =>
        let signed := Ascii.eqb c "-" || Ascii.eqb c "+" in
        let body := if signed then s' else s in
        if signed && (length body <? 1)%nat then (0%Z, ErrSyntax)
        else match atoi_loop 0 body with
             | None => (0%Z, ErrSyntax)
             | Some n => (if Ascii.eqb c "-" then (- n)%Z else n, ErrNone)
             end
    end
  else parse_int 64 s.

(** strconv.ParseBool: (value, ok) *)
Definition parse_bool (s : gostr) : bool * bool :=
  if existsb (seqb s) [L "1"; L "t"; L "T"; L "true"; L "TRUE"; L "True"] then (true, true)
  else if existsb (seqb s) [L "0"; L "f"; L "F"; L "false"; L "FALSE"; L "False"] then (false, true)
  else (false, false).
