(** Package regexp (Go 1.15), in the place of the parameters [re_ok] and [re_find] of the
    other files: the expressions that routes are written with, and the documented
    leftmost-first match with its groups.  Simplifications: flags, lazy and counted
    repetitions, named groups, word boundaries, Unicode classes, and repetitions of what
    may be empty or holds groups are not among the expressions here ([re_parse] gives
    None), nor are expressions with bytes beyond ASCII.  The texts that are searched are
    any bytes; they are read as UTF-8.  Used by water in tree.go:125 (MustCompile) and
    tree.go:242 and 283 (FindStringSubmatch). *)
From Coq Require Import ZArith NArith.
From Verif Require Import Base GoStr.
Local Open Scope nat_scope.

(** regexp/syntax Regexp; classes are ranges of bytes *)
Inductive re :=
  | REmpty                                            (* OpEmptyMatch *)
  | RSet (neg : bool) (ranges : list (ascii * ascii)) (* OpLiteral, OpCharClass, OpAnyCharNotNL *)
  | RBegin                                            (* OpBeginText *)
  | REnd                                              (* OpEndText *)
  | RCat (a b : re)                                   (* OpConcat *)
  | RAlt (a b : re)                                   (* OpAlternate *)
  | RQuest (a : re)                                   (* OpQuest, greedy *)
  | RStar (a : re)                                    (* OpStar, greedy *)
  | RPlus (a : re)                                    (* OpPlus, greedy *)
  | RGroup (a : re).                                  (* OpCapture *)
(** MaxCap *)
Fixpoint groups (r : re) : nat :=
  match r with
  | REmpty | RSet _ _ | RBegin | REnd => 0
  | RCat a b | RAlt a b => groups a + groups b
  | RQuest a | RStar a | RPlus a => groups a
  | RGroup a => S (groups a)
  end.
(** whether an expression may match the empty text *)
Fixpoint nullable (r : re) : bool :=
  match r with
  | REmpty | RBegin | REnd | RQuest _ | RStar _ => true
  | RSet _ _ => false
  | RCat a b => nullable a && nullable b
  | RAlt a b => nullable a || nullable b
  | RPlus a | RGroup a => nullable a
  end.
Definition repeatable (r : re) : bool := (groups r =? 0) && negb (nullable r).

(** ** Matching *)
Definition in_range (a : ascii) (r : ascii * ascii) : bool :=
  ((N_of_ascii (fst r) <=? N_of_ascii a) && (N_of_ascii a <=? N_of_ascii (snd r)))%N.
Definition in_set (neg : bool) (rs : list (ascii * ascii)) (a : ascii) : bool := xorb neg (existsb (in_range a) rs).
Definition is_ascii (a : ascii) : bool := (N_of_ascii a <? 128)%N.
(** unicode/utf8 DecodeRuneInString: the width of the first rune of a text; a byte that
    belongs to none is one by itself (U+FFFD) *)
Definition between (lo hi : N) (a : ascii) : bool := ((lo <=? N_of_ascii a) && (N_of_ascii a <=? hi))%N.
Definition tail_byte : ascii -> bool := between 128 191.
Definition rune_len (s : gostr) : nat :=
  match s with
  | [] => 0
  | a :: s =>
      let second (x : ascii) :=
        if between 224 224 a then between 160 191 x
        else if between 237 237 a then between 128 159 x
        else if between 240 240 a then between 144 191 x
        else if between 244 244 a then between 128 143 x
        else tail_byte x in
      if between 194 223 a then match s with x :: _ => if second x then 2 else 1 | _ => 1 end
      else if between 224 239 a then match s with x :: y :: _ => if second x && tail_byte y then 3 else 1 | _ => 1 end
      else if between 240 244 a then match s with x :: y :: z :: _ => if second x && tail_byte y && tail_byte z then 4 else 1 | _ => 1 end
      else 1
  end.
(** the ways to match an expression at the beginning of a text, in the order of
    preference: what is left of the text and the groups.  [st]: it is the beginning of
    the whole text *)
Fixpoint star_ways (f : bool -> gostr -> list (gostr * list gostr)) (fuel : nat) (st : bool) (s : gostr) : list (gostr * list gostr) :=
  match fuel with
  | O => []
  | S fuel => flat_map (fun x => if length (fst x) <? length s then star_ways f fuel false (fst x) else []) (f st s) ++ [(s, [])]
  end.
Fixpoint ways (r : re) (st : bool) (s : gostr) : list (gostr * list gostr) :=
  match r with
  | REmpty => [(s, [])]
  | RSet neg rs =>
      match s with
      | a :: s' => if is_ascii a then if in_set neg rs a then [(s', [])] else []
                   else if neg then [(drop (rune_len s) s, [])] else []
      | [] => []
      end
  | RBegin => if st then [(s, [])] else []
  | REnd => match s with [] => [(s, [])] | _ => [] end
  | RCat a b => flat_map (fun x => map (fun y => (fst y, snd x ++ snd y)) (ways b (st && (length (fst x) =? length s)) (fst x))) (ways a st s)
  | RAlt a b => map (fun x => (fst x, snd x ++ repeat [] (groups b))) (ways a st s) ++
                map (fun x => (fst x, repeat [] (groups a) ++ snd x)) (ways b st s)
  | RQuest a => ways a st s ++ [(s, repeat [] (groups a))]
  | RStar a => star_ways (ways a) (S (length s)) st s
  | RPlus a => flat_map (fun x => star_ways (ways a) (S (length (fst x))) (st && (length (fst x) =? length s)) (fst x)) (ways a st s)
  | RGroup a => map (fun x => (fst x, take (length s - length (fst x)) s :: snd x)) (ways a st s)
  end.
(** FindStringSubmatch: the match that begins first, in the preferred way *)
Fixpoint search (r : re) (fuel : nat) (st : bool) (s : gostr) : option (list gostr) :=
  match fuel with
  | O => None
  | S fuel =>
      match ways r st s with
      | (rest, gs) :: _ => Some (take (length s - length rest) s :: gs)
      | [] => match s with [] => None | _ => search r fuel false (drop (rune_len s) s) end
      end
  end.

(** ** Parsing *)
Definition digits : list (ascii * ascii) := [("0", "9")]%char.
Definition words : list (ascii * ascii) := [("0", "9"); ("A", "Z"); ("_", "_"); ("a", "z")]%char.
Definition spaces : list (ascii * ascii) := [("009", "010"); ("012", "013"); (" ", " ")]%char.
(** perl_groups.go *)
Definition perl (c : ascii) : option (bool * list (ascii * ascii)) :=
  match c with
  | "d"%char => Some (false, digits) | "D"%char => Some (true, digits)
  | "w"%char => Some (false, words) | "W"%char => Some (true, words)
  | "s"%char => Some (false, spaces) | "S"%char => Some (true, spaces)
  | _ => None
  end.
Definition is_alnum (a : ascii) : bool := existsb (in_range a) [("0", "9"); ("A", "Z"); ("a", "z")]%char.
(** parse.go parseEscape, for escaped punctuation *)
Definition punct (a : ascii) : bool := is_ascii a && negb (is_alnum a).
(** parse.go parseClassChar *)
Definition class_char (s : gostr) : option (ascii * gostr) :=
  match s with
  | [] => None
  | c :: s =>
      if Ascii.eqb c "\" then match s with c :: s => if punct c then Some (c, s) else None | [] => None end
      else if is_ascii c && negb (contains_byte c (L "[]")) then Some (c, s) else None
  end.
(** parse.go maybeParsePerlCharClassEscape within a class *)
Definition class_perl (s : gostr) : option (list (ascii * ascii) * gostr) :=
  match s with
  | b :: c :: s => if Ascii.eqb b "\" then match perl c with Some (false, rs) => Some (rs, s) | _ => None end else None
  | _ => None
  end.
(** parse.go parseClassRange *)
Definition class_range (s : gostr) : option (list (ascii * ascii) * gostr) :=
  match class_char s with
  | None => None
  | Some (lo, s1) =>
      match s1 with
      | d :: c :: s2 =>
          if Ascii.eqb d "-" && negb (Ascii.eqb c "]") then
            match class_char (c :: s2) with
            | Some (hi, s3) => if (N_of_ascii lo <=? N_of_ascii hi)%N then Some ([(lo, hi)], s3) else None
            | None => None
            end
          else Some ([(lo, lo)], s1)
      | _ => Some ([(lo, lo)], s1)
      end
  end.
(** the loop of parse.go parseClass *)
Fixpoint class_items (fuel : nat) (s : gostr) : option (list (ascii * ascii) * gostr) :=
  match fuel, s with
  | O, _ | _, [] => None
  | S fuel, b :: s' =>
      if Ascii.eqb b "]" then Some ([], s')
      else match (match class_perl s with Some x => Some x | None => class_range s end) with
           | Some (rs, s1) => match class_items fuel s1 with Some (l, r) => Some (rs ++ l, r) | None => None end
           | None => None
           end
  end.
(** parse.go parseClass; a class that begins with a bracket is left out *)
Definition p_class (s : gostr) : option (re * gostr) :=
  let '(neg, s) := if has_prefix (L "^") s then (true, drop 1 s) else (false, s) in
  if has_prefix (L "]") s then None
  else match class_items (S (length s)) s with Some (rs, r) => Some (RSet neg rs, r) | None => None end.
Definition special (a : ascii) : bool := contains_byte a (L "()[\.^$*+?{|").
(** the cases of parse.go parse without groups *)
Definition p_simple (s : gostr) : option (re * gostr) :=
  match s with
  | [] => None
  | c :: s =>
      if Ascii.eqb c "[" then p_class s
      else if Ascii.eqb c "." then Some (RSet true [("010", "010")]%char, s)
      else if Ascii.eqb c "^" then Some (RBegin, s)
      else if Ascii.eqb c "$" then Some (REnd, s)
      else if Ascii.eqb c "\" then
        match s with
        | [] => None
        | c :: s =>
            match perl c with
            | Some (neg, rs) => Some (RSet neg rs, s)
            | None => if punct c then Some (RSet false [(c, c)], s) else None
            end
        end
      else if is_ascii c && negb (special c) then Some (RSet false [(c, c)], s) else None
  end.
Definition repeats (a : ascii) : bool := contains_byte a (L "*+?{").
(** parse.go repeat; a second operator is an error or not modelled *)
Definition p_suffix (a : re) (s : gostr) : option (re * gostr) :=
  match s with
  | [] => Some (a, s)
  | c :: s' =>
      if repeats c then
        if match s' with c' :: _ => repeats c' | [] => false end then None
        else if Ascii.eqb c "?" then Some (RQuest a, s')
        else if repeatable a then
          if Ascii.eqb c "*" then Some (RStar a, s')
          else if Ascii.eqb c "+" then Some (RPlus a, s')
          else None
        else None
      else Some (a, s)
  end.
(** the loop of parse.go parse, with its stack as recursion *)
Fixpoint p_alt (fuel : nat) (s : gostr) : option (re * gostr) :=
  match fuel with
  | O => None
  | S fuel =>
      match p_cat fuel s with
      | Some (a, c :: r) =>
          if Ascii.eqb c "|" then match p_alt fuel r with Some (b, r') => Some (RAlt a b, r') | None => None end
          else Some (a, c :: r)
      | x => x
      end
  end
with p_cat (fuel : nat) (s : gostr) : option (re * gostr) :=
  match fuel with
  | O => None
  | S fuel =>
      match s with
      | [] => Some (REmpty, s)
      | c :: _ =>
          if Ascii.eqb c "|" || Ascii.eqb c ")" then Some (REmpty, s)
          else match p_atom fuel s with
               | Some (a, r) => match p_suffix a r with
                                | Some (a', r') => match p_cat fuel r' with Some (l, r'') => Some (RCat a' l, r'') | None => None end
                                | None => None
                                end
               | None => None
               end
      end
  end
with p_atom (fuel : nat) (s : gostr) : option (re * gostr) :=
  match fuel with
  | O => None
  | S fuel =>
      match s with
      | [] => None
      | c :: s' =>
          if Ascii.eqb c "(" then
            if has_prefix (L "?:") s' then
              match p_alt fuel (drop 2 s') with Some (a, d :: r) => if Ascii.eqb d ")" then Some (a, r) else None | _ => None end
            else if has_prefix (L "?") s' then None
            else match p_alt fuel s' with Some (a, d :: r) => if Ascii.eqb d ")" then Some (RGroup a, r) else None | _ => None end
          else p_simple s
      end
  end.
(** regexp.Compile *)
Definition re_parse (t : gostr) : option re :=
  match p_alt (3 * length t + 3) t with Some (r, []) => Some r | _ => None end.
Definition go_ok (t : gostr) : bool := match re_parse t with Some _ => true | None => false end.
Definition go_find (t s : gostr) : option (list gostr) :=
  match re_parse t with Some r => search r (S (length s)) true s | None => None end.
