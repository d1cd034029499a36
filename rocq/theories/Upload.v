(** content.go: saving an uploaded file. *)
From Verif Require Import Base GoStr.

(** ** The file system: what is in a file and its permissions *)
Record file := mkFile { fl_data : gostr; fl_perm : N }.
Notation fsys := (gmap gostr file).
(** the errors of opening, reading and writing are not told apart further *)
Inductive ioerr := ErrOpen (name : gostr) | ErrRead | ErrWrite | ErrShortWrite.
(** the flags of os.OpenFile that are used *)
Inductive flag := OWrOnly | OCreate | OTrunc | OAppend | OExcl.
Definition has_flag (fl : flag) (l : list flag) : bool :=
  existsb (fun x => match fl, x with
                    | OWrOnly, OWrOnly | OCreate, OCreate | OTrunc, OTrunc | OAppend, OAppend | OExcl, OExcl => true
                    | _, _ => false
                    end) l.

Section Upload.
(** whether the operating system lets a file be opened for writing (permissions,
    directories, limits) *)
Variable may_open : fsys -> gostr -> bool.
(** how many bytes of a write to a file that holds [old] are taken, and whether there
    is an error; more than given are never taken *)
Variable takes : gostr -> gostr -> nat * bool.

(** os.OpenFile with a flag for writing *)
Definition OpenFile (fs : fsys) (name : gostr) (flags : list flag) (perm : N) : option fsys :=
  if negb (may_open fs name) then None
  else match fs !! name with
       | Some f =>
           if has_flag OCreate flags && has_flag OExcl flags then None
           else Some (if has_flag OTrunc flags then <[name := mkFile [] (fl_perm f)]> fs else fs)
       | None => if has_flag OCreate flags then Some (<[name := mkFile [] perm]> fs) else None
       end.
(** Write on a file that was opened at its end *)
Definition WriteFile (fs : fsys) (name : gostr) (data : gostr) : fsys * nat * bool :=
  match fs !! name with
  | Some f =>
      let '(n, ok) := takes (fl_data f) data in
      let n := Nat.min n (length data) in
      (<[name := mkFile (fl_data f ++ take n data) (fl_perm f)]> fs, n, ok)
  | None => (fs, 0, false)
  end.

(** an opened upload: what the calls of Read give, in order, and whether they end
    with io.EOF or with another error *)
Record reader := mkReader { rd_chunks : list gostr; rd_eof : bool }.
(** io.Copy(f, src): a call of Write for each call of Read that gives something *)
Fixpoint Copy (fs : fsys) (name : gostr) (chunks : list gostr) (eof : bool) : fsys * option ioerr :=
  match chunks with
  | [] => (fs, if eof then None else Some ErrRead)
  | [] :: chunks' => Copy fs name chunks' eof
  | data :: chunks' =>
      let '(fs, n, ok) := WriteFile fs name data in
      if negb ok then (fs, Some ErrWrite)
      else if negb (n =? length data) then (fs, Some ErrShortWrite)
      else Copy fs name chunks' eof
  end.

(** content.go:177-192 SaveUploadedFile; [src] is file.Open(), None: an error.  The
    errors of Close are dropped. *)
Definition SaveUploadedFile (fs : fsys) (src : option reader) (dst : gostr) : fsys * option ioerr :=
  match src with
  | None => (fs, Some (ErrOpen []))
  | Some r =>
      match OpenFile fs dst [OWrOnly; OCreate; OTrunc] 384 (* 0600 *) with
      | None => (fs, Some (ErrOpen dst))
      | Some fs => Copy fs dst (rd_chunks r) (rd_eof r)
      end
  end.
End Upload.
