(** The functions of Go's package [strings] that water uses, on byte strings. *)
From Verif Require Import Base.

(** strings.HasPrefix *)
Fixpoint has_prefix (p s : gostr) : bool :=
  match p, s with
  | [], _ => true
  | a :: p', b :: s' => Ascii.eqb a b && has_prefix p' s'
  | _ :: _, [] => false
  end.

(** strings.HasSuffix *)
Definition has_suffix (p s : gostr) : bool := has_prefix (rev p) (rev s).

(** strings.TrimPrefix *)
Definition trim_prefix (p s : gostr) : gostr :=
  if has_prefix p s then drop (length p) s else s.

(** strings.TrimSuffix *)
Definition trim_suffix (p s : gostr) : gostr :=
  if has_suffix p s then take (length s - length p) s else s.

(** strings.TrimRight with a one-byte cutset. *)
Fixpoint drop_while (f : ascii -> bool) (s : gostr) : gostr :=
  match s with
  | [] => []
  | a :: s' => if f a then drop_while f s' else s
  end.
Definition trim_right_byte (c : ascii) (s : gostr) : gostr :=
  rev (drop_while (Ascii.eqb c) (rev s)).

(** strings.Index / strings.IndexByte with a one-byte needle; None is -1. *)
Fixpoint index_byte (c : ascii) (s : gostr) : option nat :=
  match s with
  | [] => None
  | a :: s' => if Ascii.eqb a c then Some 0
               else match index_byte c s' with Some i => Some (S i) | None => None end
  end.

(** strings.LastIndex with a one-byte needle; None is -1. *)
Fixpoint last_index_byte (c : ascii) (s : gostr) : option nat :=
  match s with
  | [] => None
  | a :: s' => match last_index_byte c s' with
               | Some i => Some (S i)
               | None => if Ascii.eqb a c then Some 0 else None
               end
  end.

(** strings.Index with an arbitrary needle. *)
Fixpoint index_str (p s : gostr) : option nat :=
  if has_prefix p s then Some 0 else
  match s with
  | [] => None
  | _ :: s' => match index_str p s' with Some i => Some (S i) | None => None end
  end.

(** strings.Contains *)
Definition contains (p s : gostr) : bool :=
  match index_str p s with Some _ => true | None => false end.

Definition contains_byte (c : ascii) (s : gostr) : bool :=
  existsb (Ascii.eqb c) s.

(** strings.ContainsAny with an ASCII set. *)
Definition contains_any (cs s : gostr) : bool :=
  existsb (fun a => existsb (Ascii.eqb a) cs) s.

(** strings.Count with a one-byte needle. *)
Definition count_byte (c : ascii) (s : gostr) : nat :=
  length (List.filter (Ascii.eqb c) s).

(** strings.Split with a one-byte separator: never empty. *)
Fixpoint split_byte (c : ascii) (s : gostr) : list gostr :=
  match s with
  | [] => [[]]
  | a :: s' =>
      if Ascii.eqb a c then [] :: split_byte c s'
      else match split_byte c s' with
           | [] => [[a]]
           | x :: l => (a :: x) :: l
           end
  end.

(** strings.Split with a non-empty separator.  [skip] bytes of a separator
    occurrence remain to be skipped. *)
Fixpoint split_str_aux (sep : gostr) (skip : nat) (s : gostr) : list gostr :=
  match s with
  | [] => [[]]
  | a :: s' =>
      match skip with
      | S k => split_str_aux sep k s'
      | O =>
          if has_prefix sep s then [] :: split_str_aux sep (length sep - 1) s'
          else match split_str_aux sep 0 s' with
               | [] => [[a]]
               | x :: l => (a :: x) :: l
               end
      end
  end.
Definition split_str (sep s : gostr) : list gostr := split_str_aux sep 0 s.

(** strings.Join *)
Fixpoint join (sep : gostr) (l : list gostr) : gostr :=
  match l with
  | [] => []
  | [x] => x
  | x :: l' => x ++ sep ++ join sep l'
  end.

(** strings.TrimSpace.  Leading and trailing space runes are removed: the six
    ASCII spaces and the UTF-8 encodings of U+0085, U+00A0, U+1680,
    U+2000..U+200A, U+2028, U+2029, U+202F, U+205F, U+3000. *)
Definition byte_of (a : ascii) : N := N_of_ascii a.
Definition is_space1 (a : ascii) : bool :=
  let n := byte_of a in
  ((9 <=? n) && (n <=? 13) || (n =? 32))%N.
Definition is_space2 (a b : ascii) : bool :=
  ((byte_of a =? 194) && ((byte_of b =? 133) || (byte_of b =? 160)))%N.
Definition is_space3 (a b c : ascii) : bool :=
  let x := byte_of a in let y := byte_of b in let z := byte_of c in
  ((x =? 225) && (y =? 154) && (z =? 128)
   || (x =? 226) && (y =? 128) &&
      ((128 <=? z) && (z <=? 138) || (z =? 168) || (z =? 169) || (z =? 175))
   || (x =? 226) && (y =? 129) && (z =? 159)
   || (x =? 227) && (y =? 128) && (z =? 128))%N.

Fixpoint trim_left_space (s : gostr) : gostr :=
  match s with
  | [] => []
  | a :: s1 =>
      if is_space1 a then trim_left_space s1 else
      match s1 with
      | [] => s
      | b :: s2 =>
          if is_space2 a b then trim_left_space s2 else
          match s2 with
          | [] => s
          | c :: s3 => if is_space3 a b c then trim_left_space s3 else s
          end
      end
  end.
(** the same on a reversed string *)
Fixpoint trim_left_space_rev (s : gostr) : gostr :=
  match s with
  | [] => []
  | a :: s1 =>
      if is_space1 a then trim_left_space_rev s1 else
      match s1 with
      | [] => s
      | b :: s2 =>
          if is_space2 b a then trim_left_space_rev s2 else
          match s2 with
          | [] => s
          | c :: s3 => if is_space3 c b a then trim_left_space_rev s3 else s
          end
      end
  end.
Definition trim_right_space (s : gostr) : gostr := rev (trim_left_space_rev (rev s)).
Definition trim_space (s : gostr) : gostr := trim_right_space (trim_left_space s).

(** strings.ToUpper / ToLower.  Simplification: only ASCII letters are mapped;
    the real functions also map non-ASCII letters. *)
Definition upper_byte (a : ascii) : ascii :=
  let n := byte_of a in
  if ((97 <=? n) && (n <=? 122))%N then ascii_of_N (n - 32) else a.
Definition lower_byte (a : ascii) : ascii :=
  let n := byte_of a in
  if ((65 <=? n) && (n <=? 90))%N then ascii_of_N (n + 32) else a.
Definition to_upper (s : gostr) : gostr := map upper_byte s.
Definition to_lower (s : gostr) : gostr := map lower_byte s.

(** The slice expression s[lo:hi]; panics as the Go runtime does. *)
Definition slice (s : gostr) (lo hi : nat) : res gostr :=
  if (lo <=? hi) && (hi <=? length s) then Ok (take (hi - lo) (drop lo s))
  else Panic (L "runtime error: slice bounds out of range").
