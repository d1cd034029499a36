(** Which Render a request is served with, and what a Render is expected to do. *)
From Verif Require Import Base GoStr Strconv Pattern Tree Header Router Ctx Engine Render.
Local Open Scope Z_scope.

Section Spec.
Context {A V D : Type}.
Implicit Types acts : list (act (A:=A) (V:=V) (D:=D)).
Definition sets_none acts : Prop := forall r, ASetRender r ∉ acts.
(** after acts, the Render is the one that was set last; none was set: the default *)
Inductive installed (dflt : renderer (V:=V) (D:=D)) : list (act (A:=A)) -> renderer -> Prop :=
  | installed_set a r b : sets_none b -> installed dflt (a ++ ASetRender r :: b) r
  | installed_default a : sets_none a -> installed dflt a dflt.
(** the number of requests among acts *)
Fixpoint requests acts : nat :=
  match acts with [] => 0%nat | ASetRender _ :: l => requests l | AServe _ _ _ _ :: l => S (requests l) end.

(** a Render that sends, with the given status and some Content-Type, a page of text *)
Definition sends_page (R : renderer (V:=V) (D:=D)) (t : gostr) (text : gostr -> gostr -> D -> gostr) : Prop :=
  forall n set tpl d, R n set tpl d = PDo (OHeaderSet (L "Content-Type") t) (fun _ => PDo (OWriteHeader n) (fun _ => PDo (OWrite (text set tpl d)) (fun _ => PRet))).
End Spec.
