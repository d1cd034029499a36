(** environ.go: the typed getters of Environ. *)
From Verif Require Import Base GoStr Strconv Tree Header Router Ctx.
Local Open Scope Z_scope.

(** the values an interface{} can hold, as far as the getters distinguish them;
    F: floating-point numbers, O: everything else (nil included) *)
Inductive anyval {F O : Type} :=
  | VBool (b : bool) | VInt (z : Z) | VInt64 (z : Z) | VUint (n : N) | VUint64 (n : N) | VFloat64 (f : F)
  | VString (s : gostr) | VOther (o : O).
Arguments anyval : clear implicits.

Section Environ.
Context {F O : Type}.
Notation anyval := (anyval F O).
(** environ.go:5; None is a nil map *)
Notation Environ := (option (gmap gostr anyval)).
Implicit Types m : Environ.

(** m[name]: a missing entry is the nil interface, which no type assertion
    accepts *)
Definition env_at m (name : gostr) : option anyval := m ≫= (.!! name).
(** a failed type assertion panics with a runtime error *)
Definition refuse {X} : res X := Panic (L "interface conversion").
(** environ.go:7-9 *)
Definition GetBool m name : res bool := match env_at m name with Some (VBool b) => Ok b | _ => refuse end.
(** environ.go:11-13 *)
Definition GetInt m name : res Z := match env_at m name with Some (VInt z) => Ok z | _ => refuse end.
(** environ.go:15-17 *)
Definition GetInt64 m name : res Z := match env_at m name with Some (VInt64 z) => Ok z | _ => refuse end.
(** environ.go:19-21 *)
Definition GetUint m name : res N := match env_at m name with Some (VUint n) => Ok n | _ => refuse end.
(** environ.go:23-25 *)
Definition GetUint64 m name : res N := match env_at m name with Some (VUint64 n) => Ok n | _ => refuse end.
(** environ.go:27-29 *)
Definition GetFloat64 m name : res F := match env_at m name with Some (VFloat64 f) => Ok f | _ => refuse end.
(** environ.go:31-33 *)
Definition GetString m name : res gostr := match env_at m name with Some (VString s) => Ok s | _ => refuse end.

(** environ.go:36-42 Get, 45-51 Set and 53-56 Has of Environ itself (not of the
    Context, for which see Ctx.v) *)
Definition Environ_Get m name : res anyval :=
  match env_at m name with Some v => Ok v | None => Panic (L "Environ not exist: " ++ name) end.
Definition Environ_Has m name : bool := match env_at m name with Some _ => true | None => false end.
Definition Environ_Set m name (v : anyval) : res Environ :=
  if Environ_Has m name then Panic (L "double Environ: " ++ name)
  else match m with
       | Some m => Ok (Some (<[name := v]> m))
       | None => Panic (L "assignment to entry in nil map")
       end.
End Environ.
