(** render.go: the Render of the process, HTML and HTMLSet. *)
From Verif Require Import Base GoStr Strconv Pattern Tree Header Router Ctx Engine Util Getters Content.
Local Open Scope Z_scope.

Section Render.
Context {A V D : Type}.
Variable re_find : gostr -> gostr -> option (list gostr).
Variable sniff : gostr -> gostr.
Variable parse_form : bool -> request -> gostr * bool -> gmap gostr (list gostr) * bool * gostr.

(** p, and then k if p returns *)
Fixpoint andthen (p k : prog V) : prog V :=
  match p with
  | PRet => k
  | PPanic v => PPanic v
  | PDo o c => PDo o (fun a => andthen (c a) k)
  | PNext c => PNext (andthen c k)
  | PTry b c => PTry b (fun o => andthen (c o) k)
  end.

(** render.go:24-26: the method HTMLSet of a Render, given code, name of the set,
    name of the template, and data (of type D); it may do anything with the Context *)
Definition renderer : Type := Z -> gostr -> gostr -> D -> prog V.
(** render.go:13-18 *)
Definition defaultRender : renderer := fun code setName tplName data => Content.HTMLSet code PRet.

(** render.go:39-41, with [render] the value of _render *)
Definition renderHTML (render : renderer) (code : Z) (setName tplName : gostr) (data : D) (k : prog V) : prog V :=
  andthen (render code setName tplName data) k.
(** render.go:3-5 and 29-31 *)
Definition DEFAULT_TPL_SET_NAME : gostr := [].
Definition HTML (render : renderer) (code : Z) (name : gostr) (data : D) (k : prog V) : prog V :=
  renderHTML render code DEFAULT_TPL_SET_NAME name data k.
(** render.go:34-36 *)
Definition HTMLSet (render : renderer) (code : Z) (setName tplName : gostr) (data : D) (k : prog V) : prog V :=
  renderHTML render code setName tplName data k.

(** What a process does with its engines, in order.  The code of handlers may depend
    on _render.  Simplification: SetRender is called between requests, not while
    one is being served. *)
Inductive act :=
  | ASetRender (r : renderer)
  | AServe (e : engine A) (id : nat) (x : ctxobj A V) (c : conn V).
(** render.go:7-11 and 20-22: the replies, from the given value of _render on *)
Fixpoint process (code : renderer -> handler A -> prog V) (render : renderer) (acts : list act)
  : list (ending * option (ctxobj A V) * conn V) :=
  match acts with
  | [] => []
  | ASetRender r :: acts => process code r acts
  | AServe e id x c :: acts => ServeHTTP re_find sniff parse_form (code render) e id x c :: process code render acts
  end.
(** a process from its start, with init of render.go:20-22 *)
Definition run_process (code : renderer -> handler A -> prog V) (acts : list act) := process code defaultRender acts.
End Render.
