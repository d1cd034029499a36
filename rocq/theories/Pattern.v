(** Pattern analysis of route segments: tree.go lines 10-140. *)
From Verif Require Import Base GoStr.

(** tree.go:10-15, the four segment kinds, in the numeric order of the code. *)
Inductive ptype := PStatic | PRegexp | PHolder | PMatchAll.
Definition ptype_n (t : ptype) : nat :=
  match t with PStatic => 0 | PRegexp => 1 | PHolder => 2 | PMatchAll => 3 end.
Definition ptype_ltb (a b : ptype) : bool := ptype_n a <? ptype_n b.
Global Instance ptype_eq_dec : EqDecision ptype.
Proof. solve_decision. Defined.

(** tree.go:17-31, the fields of a node that come from its pattern.  The
    compiled regexp is represented by its source text. *)
Record pat := mkPat {
  p_typ : ptype;
  p_raw : gostr;          (* node.pattern *)
  p_parsed : gostr;       (* node.parsedPattern *)
  p_wild : list gostr;    (* node.wildcards *)
  p_reg : option gostr    (* node.reg *)
}.
Global Instance pat_eq_dec : EqDecision pat.
Proof. solve_decision. Defined.

(** tree.go:60-86 getparsedPattern.  Panic messages are abbreviated. *)
Definition getparsedPattern (pattern : gostr) : res gostr :=
  if has_prefix (L "*") pattern then Ok pattern
  else if negb (contains_any (L "<>") pattern) then Ok pattern
  else
    let startIdx := index_byte "<" pattern in
    let endIdx := last_index_byte ">" pattern in
    match startIdx, endIdx with
    | Some 0, Some endIdx =>
        if endIdx =? length pattern - 1 then
          let typeStartIdx := index_byte ":" pattern in
          let regStartIdx := index_byte "~" pattern in
          let closeIdx :=
            match typeStartIdx with
            | Some i => i
            | None => match regStartIdx with Some i => i | None => endIdx end
            end in
          let! s := slice pattern 1 closeIdx in
          Ok (trim_space s)
        else Panic (L "invalid pattern without correct format.")
    | _, _ => Panic (L "invalid pattern without correct format.")
    end.

(** tree.go:133-140 getWildcards *)
Definition getWildcards (pattern : gostr) : list gostr :=
  map trim_space (split_byte "," pattern).

(** tree.go:89-103 partternRegexp; None: the function returned an error.
    It is only called when the pattern contains "~" and "<...>"; a missing
    needle (index -1) would make the slice expression panic. *)
Definition partternRegexp (pattern : gostr) (want : nat) : res (option gostr) :=
  if want =? 0 then Ok None
  else
    match index_byte "~" pattern, index_byte ">" pattern with
    | Some startIdx, Some closeIdx =>
        let! s := slice pattern (startIdx + 1) closeIdx in
        let regExp := trim_space s in
        if contains_any (L "()") pattern
           && negb ((count_byte "(" regExp =? want)
                    && (count_byte "(" regExp =? count_byte ")" regExp))
        then Ok None
        else Ok (Some regExp)
    | _, _ => Panic (L "runtime error: slice bounds out of range")
    end.

Section Analyze.
(** whether regexp.Compile accepts an expression *)
Variable re_ok : gostr -> bool.

(** tree.go:105-131 analyzePattern together with newNode (tree.go:42-53). *)
Definition analyzePattern (pattern : gostr) : res pat :=
  if negb (seqb pattern (trim_space pattern)) then
    Panic (L "invalid pattern, it may contain spaces, and so on.")
  else
    let! parsed := getparsedPattern pattern in
    if has_prefix (L "*") parsed then
      Ok (mkPat PMatchAll pattern (trim_prefix (L "*") parsed) [] None)
    else if contains_byte "<" pattern then
      let wildcards := getWildcards parsed in
      if contains_byte "~" pattern then
        let! r := partternRegexp pattern (length wildcards) in
        match r with
        | None => Panic (L "invalid regexp pattern")
        | Some regExp =>
            if re_ok regExp then Ok (mkPat PRegexp pattern parsed wildcards (Some regExp))
            else Panic (L "regexp: Compile error")
        end
      else Ok (mkPat PHolder pattern parsed wildcards None)
    else Ok (mkPat PStatic pattern parsed [] None).

End Analyze.
