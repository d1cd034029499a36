(** Package path / path/filepath of the Go standard library, as used by water
    (slash-separated platform). *)
From Verif Require Import Base GoStr.

(** path.Clean, by segments: the documented rules applied to the list of segments
    (package path, func Clean).  [st] is the output so far, last segment first. *)
Fixpoint clean_segs (rooted : bool) (st : list gostr) (l : list gostr) : list gostr :=
  match l with
  | [] => st
  | x :: l' =>
      if seqb x [] || seqb x (L ".") then clean_segs rooted st l'
      else if seqb x (L "..") then
        match st with
        | [] => clean_segs rooted (if rooted then [] else [x]) l'
        | y :: st' => if seqb y (L "..") then clean_segs rooted (x :: st) l'
                      else clean_segs rooted st' l'
        end
      else clean_segs rooted (x :: st) l'
  end.
Definition Clean (p : gostr) : gostr :=
  match p with
  | [] => L "."
  | c :: _ =>
      let rooted := Ascii.eqb c "/" in
      let out := join (L "/") (rev (clean_segs rooted [] (split_byte "/" p))) in
      if rooted then "/"%char :: out
      else match out with [] => L "." | _ => out end
  end.

(** filepath.Join: empty elements are ignored *)
Definition filepath_Join (l : list gostr) : gostr :=
  match List.filter (fun x => negb (seqb x [])) l with
  | [] => []
  | l' => Clean (join (L "/") l')
  end.

(** util.go:19-30 cleanPath *)
Definition cleanPath (p : gostr) : gostr :=
  match p with
  | [] => L "/"
  | c :: _ => Clean (if Ascii.eqb c "/" then p else "/"%char :: p)
  end.
