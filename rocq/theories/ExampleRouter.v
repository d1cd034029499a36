(** Evaluation helpers for the examples about registration. *)
From Verif Require Import Base GoStr Strconv Pattern Tree Router RouterSpec.

Section Example.
Context {A : Type}.
Variable re_ok : gostr -> bool.
Implicit Types ops : list (rop A).

(** the routes of the engine that a registration gives, and the memory limit *)
Definition build_of ops (r : nat) (opts : list (opt A)) (mem : Z) : option (list (route A) * Z) :=
  match run_ops ops [] with
  | Ok hp => match Handler re_ok hp r opts mem with
             | (Ok e, m) => Some (rs_slice (en_store e), m)
             | _ => None
             end
  | _ => None
  end.
Lemma build_split ops r opts mem s m : build_of ops r opts mem = Some (s, m) ->
  exists hp e, run_ops ops [] = Ok hp /\ Handler re_ok hp r opts mem = (Ok e, m) /\
    rs_slice (en_store e) = s.
Proof.
  unfold build_of. destruct (run_ops ops []) as [hp| |]; try discriminate.
  destruct (Handler re_ok hp r opts mem) as [[e| |] m'] eqn:He; try discriminate.
  intros [= <- <-]. eauto.
Qed.

(** a registration whose calls succeed and whose Handler() panics *)
Definition fail_of ops (r : nat) (opts : list (opt A)) (mem : Z) : bool :=
  match run_ops ops [] with
  | Ok hp => match fst (Handler re_ok hp r opts mem) with Panic _ => true | _ => false end
  | _ => false
  end.
Lemma fail_split ops r opts mem : fail_of ops r opts mem = true ->
  exists hp, run_ops ops [] = Ok hp /\ is_panic (fst (Handler re_ok hp r opts mem)).
Proof.
  unfold fail_of. destruct (run_ops ops []) as [hp| |]; try discriminate.
  destruct (fst (Handler re_ok hp r opts mem)) as [e|msg|] eqn:He; try discriminate.
  intros _. exists hp. split; [done|]. rewrite He. by exists msg.
Qed.
End Example.
