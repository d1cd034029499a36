(** Context.HandlerName: content.go and util.go. *)
From Verif Require Import Base GoStr Strconv Pattern Tree Header Router Ctx.

Section Name.
Context {A V : Type}.

(** What a value that implements water.Handler is: a function (HandlerFunc);
    something else that reflect.Value.Pointer accepts, as a pointer or a map (its
    address is not that of a function); anything else, as a struct. *)
Inductive fkind := KFunc | KPointer | KOther.
Variable kind : A -> fkind.
(** the name that runtime.FuncForPC gives for the code of a function value *)
Variable fname : A -> gostr.

(** util.go:106-108 nameOfFunction, of a value that newHandler made
    (engine.go:22-39): func(<star>Context) is converted to HandlerFunc, which keeps its
    code; the other two are closures of newHandler.  FuncForPC is nil for what is no
    code, and the Name of a nil Func is empty. *)
Definition nameOfFunction (h : handler A) : res gostr :=
  match h with
  | HHandler a =>
      match kind a with
      | KFunc => Ok (fname a)
      | KPointer => Ok []
      | KOther => Panic (L "reflect: call of reflect.Value.Pointer on a value without one")
      end
  | HFuncCtx a => Ok (fname a)
  | HHttp _ => Ok (L "github.com/meilihao/water.newHandler.func1")
  | HHttpFunc _ => Ok (L "github.com/meilihao/water.newHandler.func2")
  end.

(** content.go:309-311 HandlerName *)
Definition HandlerName (x : ctxobj A V) : res gostr :=
  match x_hlen x with
  | O => Panic (L "index out of range [-1]")
  | S n => match x_handlers x !! n with
           | Some h => nameOfFunction h
           | None => Panic (L "index out of range")
           end
  end.
End Name.
