(** Registration part of the static file helpers: m_static.go. *)
From Verif Require Import Base GoStr Strconv Pattern Tree Router PathClean.

Section StaticReg.
Context {A : Type}.

(** m_static.go:43-48: the prefix as StaticAdvance leaves it in its options *)
Definition static_prefix (p : gostr) : gostr :=
  match p with
  | [] => []
  | c :: _ => trim_right_byte "/" (if Ascii.eqb c "/" then p else "/"%char :: p)
  end.

(** m_static.go:34-112 StaticAdvance, the registration.  [fs_nil]: opt.FileSystem
    is nil; [a]: the closure h (its behaviour is in Static.v). *)
Definition StaticAdvance (hp : heap A) (r : nat) (prefix : gostr) (fs_nil : bool) (a : A) : res (heap A) :=
  let! x := deref hp r in
  if negb (IsParent x) then Panic (L "sub router not allowed : StaticAdvance()")
  else if fs_nil then Panic (L "need FileSystem")
  else
    let pattern := filepath_Join [static_prefix prefix; L "/*"] in
    let! hp := handle hp r (L "GET") pattern [IFuncCtx a] in
    handle hp r (L "HEAD") pattern [IFuncCtx a].

(** m_static.go:118-125 Static *)
Definition Static (hp : heap A) (r : nat) (uri : gostr) (a : A) : res (heap A) :=
  StaticAdvance hp r uri false a.

(** m_static.go:129-141 StaticFile *)
Definition StaticFile (hp : heap A) (r : nat) (relativePath : gostr) (a : A) : res (heap A) :=
  let! x := deref hp r in
  if negb (IsParent x) then Panic (L "sub router not allowed : Static()")
  else
    let! hp := handle hp r (L "GET") relativePath [IFuncCtx a] in
    handle hp r (L "HEAD") relativePath [IFuncCtx a].
End StaticReg.
