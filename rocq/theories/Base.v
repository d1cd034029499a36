(** Base definitions shared by the whole model. *)
From Coq Require Export Ascii String.
From stdpp Require Export gmap strings list.
From Coq Require Export Lia.

(** Go strings are byte strings: lists of 8-bit characters. *)
Definition gostr := list ascii.
Definition L (s : string) : gostr := String.list_ascii_of_string s.
Arguments L : simpl never.
Coercion L : string >-> gostr.
Global Instance gostr_eq_dec : EqDecision gostr := _.
Global Instance gostr_countable : Countable gostr := _.
Global Instance gostr_inhabited : Inhabited gostr := populate [].

(** Outcome of a Go function that may panic.  [Diverge] stands for unbounded
    recursion: it is what a fuelled model returns when its fuel runs out, and is
    never a normal result. *)
Inductive res (A : Type) :=
  | Ok (a : A)
  | Panic (msg : gostr)
  | Diverge.
Arguments Ok {A} a.
Arguments Panic {A} msg.
Arguments Diverge {A}.

Definition rbind {A B} (x : res A) (f : A -> res B) : res B :=
  match x with
  | Ok a => f a
  | Panic m => Panic m
  | Diverge => Diverge
  end.
Notation "'let!' x ':=' e 'in' k" := (rbind e (fun x => k))
  (at level 200, x pattern, e at level 100, k at level 200, right associativity).

Definition is_ok {A} (x : res A) : Prop := exists a, x = Ok a.
Definition is_panic {A} (x : res A) : Prop := exists m, x = Panic m.

Lemma rbind_ok {A B} (x : res A) (f : A -> res B) (b : B) :
  rbind x f = Ok b <-> exists a, x = Ok a /\ f a = Ok b.
Proof.
  destruct x as [a|m|]; simpl; split.
  - intros H; exists a; split; [reflexivity|exact H].
  - intros (a' & Ha & H). inversion Ha; subst. exact H.
  - discriminate.
  - intros (a' & Ha & _); discriminate.
  - discriminate.
  - intros (a' & Ha & _); discriminate.
Qed.

(** Equality tests on byte strings, as booleans that compute. *)
Definition seqb (a b : gostr) : bool := bool_decide (a = b).
Lemma seqb_true a b : seqb a b = true <-> a = b.
Proof. unfold seqb. apply bool_decide_eq_true. Qed.
Lemma seqb_false a b : seqb a b = false <-> a <> b.
Proof. unfold seqb. apply bool_decide_eq_false. Qed.
Lemma seqb_refl a : seqb a a = true.
Proof. apply seqb_true; reflexivity. Qed.
Lemma seqb_spec a b : reflect (a = b) (seqb a b).
Proof. destruct (seqb a b) eqn:E; constructor; [apply seqb_true|apply seqb_false]; exact E. Qed.
