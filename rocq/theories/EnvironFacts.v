(** Environ: what its methods answer after any sequence of stores. *)
From Verif Require Import Base GoStr Strconv Tree Header Router Ctx Environ.
Local Open Scope Z_scope.

Section Facts.
Context {F O : Type}.
Notation anyval := (anyval F O).
Notation Environ := (option (gmap gostr anyval)).

(** what a program can do to an Environ: m.Set(name, v), m[name] = v and
    delete(m, name) *)
Inductive eop := ESet (name : gostr) (v : anyval) | EPut (name : gostr) (v : anyval) | EDel (name : gostr).
Definition on (o : eop) : gostr := match o with ESet n _ | EPut n _ | EDel n => n end.
(** a Set that panics stores nothing *)
Definition do_eop (m : Environ) (o : eop) : Environ :=
  match o with
  | ESet n v => match Environ_Set m n v with Ok m' => m' | _ => m end
  | EPut n v => match m with Some m => Some (<[n := v]> m) | None => None end
  | EDel n => match m with Some m => Some (delete n m) | None => None end
  end.
Definition made_by (os : list eop) : Environ := fold_left do_eop os (Some ∅).

(** [holds name os v]: the value of a name after the operations os *)
Inductive holds (name : gostr) : list eop -> option anyval -> Prop :=
  | holds_nil : holds name [] None
  | holds_put os v : holds name (os ++ [EPut name v]) (Some v)
  | holds_del os : holds name (os ++ [EDel name]) None
  | holds_first os v : holds name os None -> holds name (os ++ [ESet name v]) (Some v)
  | holds_again os v w : holds name os (Some w) -> holds name (os ++ [ESet name v]) (Some w)
  | holds_other os o v : holds name os v -> on o <> name -> holds name (os ++ [o]) v.

Lemma made_snoc os o : made_by (os ++ [o]) = do_eop (made_by os) o.
Proof. unfold made_by. by rewrite fold_left_app. Qed.
Lemma made_some os : exists m, made_by os = Some m.
Proof.
  induction os as [|o os [m IH]] using rev_ind; [by eexists|]. rewrite made_snoc, IH.
  destruct o as [n v|n v|n]; cbn; [|by eexists..]. unfold Environ_Set. destruct (Environ_Has _ _); by eexists.
Qed.
Lemma holds_at name os v : holds name os v -> env_at (made_by os) name = v.
Proof.
  induction 1 as [|os v|os|os v H IH|os v w H IH|os o v H IH Hne]; [done|..]; rewrite made_snoc; destruct (made_some os) as [m Hm];
    rewrite Hm in *; unfold env_at in *; cbn in *.
  - apply lookup_insert.
  - apply lookup_delete.
  - unfold Environ_Set, Environ_Has, env_at. cbn. rewrite IH. cbn. apply lookup_insert.
  - unfold Environ_Set, Environ_Has, env_at. cbn. rewrite IH. cbn. done.
  - destruct o as [n w|n w|n]; cbn in *.
    + unfold Environ_Set. destruct (Environ_Has _ _); cbn; [done|]. by rewrite lookup_insert_ne.
    + by rewrite lookup_insert_ne.
    + by rewrite lookup_delete_ne.
Qed.
Lemma holds_total name os : exists v, holds name os v.
Proof.
  induction os as [|o os [v IH]] using rev_ind; [by eexists; constructor|].
  destruct (decide (on o = name)) as [<-|Hne]; [|exists v; by constructor].
  destruct o as [n w|n w|n]; cbn; [|by eexists; constructor..].
  destruct v as [u|]; [exists (Some u)|exists (Some w)]; by constructor.
Qed.

Lemma environ_untyped name os o : holds name os o ->
  Environ_Has (made_by os) name = (if o then true else false) /\
  (forall v, Environ_Get (made_by os) name = Ok v <-> o = Some v) /\
  (o = None -> Environ_Get (made_by os) name = Panic (L "Environ not exist: " ++ name)) /\
  (forall v, match o with
             | None => exists m', Environ_Set (made_by os) name v = Ok m' /\ m' = made_by (os ++ [ESet name v])
             | Some _ => Environ_Set (made_by os) name v = Panic (L "double Environ: " ++ name) /\ made_by (os ++ [ESet name v]) = made_by os
             end).
Proof.
  intros H. apply holds_at in H. unfold Environ_Get, Environ_Has. rewrite H. split; [by destruct o|]. split.
  - intros v. destruct o; split; congruence.
  - split; [by intros ->|]. intros v. rewrite made_snoc. cbn [do_eop]. unfold Environ_Set, Environ_Has. rewrite H.
    destruct (made_some os) as [m Hm]. rewrite Hm. destruct o; [done|]. by eexists.
Qed.

(** [typed get kind]: the getter accepts exactly the values of its type *)
Lemma environ_typed name os o : holds name os o ->
  let m := made_by os in
  ((forall b, GetBool m name = Ok b <-> o = Some (VBool b)) /\ (forall z, GetInt m name = Ok z <-> o = Some (VInt z)) /\
   (forall z, GetInt64 m name = Ok z <-> o = Some (VInt64 z)) /\ (forall n, GetUint m name = Ok n <-> o = Some (VUint n)) /\
   (forall n, GetUint64 m name = Ok n <-> o = Some (VUint64 n)) /\ (forall f, GetFloat64 m name = Ok f <-> o = Some (VFloat64 f)) /\
   (forall s, GetString m name = Ok s <-> o = Some (VString s))) /\
  ((forall b, o <> Some (VBool b)) -> exists e, GetBool m name = Panic e) /\ ((forall z, o <> Some (VInt z)) -> exists e, GetInt m name = Panic e) /\
  ((forall z, o <> Some (VInt64 z)) -> exists e, GetInt64 m name = Panic e) /\ ((forall n, o <> Some (VUint n)) -> exists e, GetUint m name = Panic e) /\
  ((forall n, o <> Some (VUint64 n)) -> exists e, GetUint64 m name = Panic e) /\
  ((forall f, o <> Some (VFloat64 f)) -> exists e, GetFloat64 m name = Panic e) /\
  ((forall s, o <> Some (VString s)) -> exists e, GetString m name = Panic e).
Proof.
  intros H m. apply holds_at in H. unfold GetBool, GetInt, GetInt64, GetUint, GetUint64, GetFloat64, GetString. unfold m. rewrite H.
  split; destruct o as [[]|]; split_and!; intros; first [split; congruence | by eexists | exfalso; naive_solver].
Qed.
End Facts.
Arguments eop : clear implicits.
