(** What is said about concurrent requests. *)
From Verif Require Import Base GoStr Strconv Pattern Tree Header Router Ctx Engine Machine.

Section Spec.
Context {A V : Type}.
Variable re_find : gostr -> gostr -> option (list gostr).
Variable sniff : gostr -> gostr.
Variable parse_form : bool -> request -> gostr * bool -> gmap gostr (list gostr) * bool * gostr.
Variable code : handler A -> prog V.
Variable e : engine A.

(** contexts that have served nothing but requests of [inp], each of them wholly,
    one after another *)
Inductive recycled (inp : gmap nat (request * rbody)) : ctxobj A V -> Prop :=
  | rc_new : recycled inp newContext
  | rc_used t r body x x' c : recycled inp x -> inp !! t = Some (r, body) ->
      ServeHTTP re_find sniff parse_form code e t x (arrive r body) = (EDone, Some x', c) -> recycled inp x'.

(** goroutine t has ended *)
Definition ended (w : world A V) (t : nat) : Prop := exists en, w_threads w !! t = Some (TEnd en).

(** the number of steps of goroutine t *)
Definition turns (t : nat) (l : list (option nat)) : nat := length (List.filter (fun o => bool_decide (o = Some t)) l).
End Spec.
