(** Goroutines that handlers start and that go on using the Context: context.go
    gives them the pointer that engine.go:96 took out of the pool, and engine.go:118
    and 131 put it back whatever they do. *)
From Verif Require Import Base GoStr Strconv Pattern Tree Header Router Ctx Engine Machine.
Local Open Scope Z_scope.

Section Stray.
Context {A V : Type}.
Variable re_find : gostr -> gostr -> option (list gostr).
Variable sniff : gostr -> gostr.
Variable parse_form : bool -> request -> gostr * bool -> gmap gostr (list gostr) * bool * gostr.
Variable code : handler A -> prog V.
Variable e : engine A.

(** A use of the context p by such a goroutine: a call of one of the methods of the
    Context (Ctx.op), which acts on the connection that the context refers to at
    that moment, or a change of its index, of which Next (context.go:47-50) is made
    besides the calls of the handlers that it runs.  Simplification: a call is one
    step, as for the goroutines that serve requests. *)
Inductive stray (p : nat) (w : world A V) : world A V -> Prop :=
  | sy_call o x j c r x' c' :
      w_ctx w !! p = Some x -> x_conn x = Some j -> w_conns w !! j = Some c ->
      call sniff parse_form o x c = (r, (x', c')) ->
      stray p w (mkWorld (<[p := x']> (w_ctx w)) (w_pool w) (<[j := c']> (w_conns w)) (w_threads w) (w_input w))
  | sy_index x :
      w_ctx w !! p = Some x ->
      stray p w (mkWorld (<[p := set_index x (S (x_index x))]> (w_ctx w)) (w_pool w) (w_conns w) (w_threads w) (w_input w)).

(** A world and the goroutines that handlers have started: (t, p) is one that was
    started while request t was served, with the context p.  Which handlers start
    them is not said by their programs: any may, at any moment.  [may w t] says when
    a goroutine started for request t may use its context. *)
Record crowd := mkCrowd { cr_world : world A V; cr_kept : list (nat * nat) }.
Inductive crowded (may : world A V -> nat -> Prop) : crowd -> Prop :=
  | cr_empty : crowded may (mkCrowd empty_world [])
  | cr_thread g t w' : crowded may g -> tstep re_find sniff parse_form code e t (cr_world g) w' -> crowded may (mkCrowd w' (cr_kept g))
  | cr_env g w' : crowded may g -> estep (cr_world g) w' -> crowded may (mkCrowd w' (cr_kept g))
  | cr_go g t p q k : crowded may g -> w_threads (cr_world g) !! t = Some (TProg p q k) ->
      crowded may (mkCrowd (cr_world g) ((t, p) :: cr_kept g))
  | cr_use g t p w' : crowded may g -> (t, p) ∈ cr_kept g -> may (cr_world g) t -> stray p (cr_world g) w' ->
      crowded may (mkCrowd w' (cr_kept g)).

End Stray.
Arguments crowd : clear implicits.
