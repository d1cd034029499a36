(** Executions of the concurrent machine that are computed. *)
From Verif Require Import Base GoStr Strconv Pattern Tree Header Router Ctx Engine Machine.
Local Open Scope Z_scope.

Section Example.
Context {A V : Type}.
Variable re_find : gostr -> gostr -> option (list gostr).
Variable sniff : gostr -> gostr.
Variable parse_form : bool -> request -> gostr * bool -> gmap gostr (list gostr) * bool * gostr.
Variable code : handler A -> prog V.
Variable e : engine A.
Implicit Types w : world A V.

(** what happens next: a request arrives, a goroutine makes a step (and takes the
    context p from sync.Pool if it calls Get), an object is dropped from the pool *)
Inductive choice :=
  | CArrive (t : nat) (r : request) (body : rbody)
  | CStep (t p : nat)
  | CDrop.

Fixpoint take_out (p : nat) (l : list nat) : option (list nat * list nat) :=
  match l with
  | [] => None
  | q :: l => if decide (p = q) then Some ([], l) else (fun '(a, b) => (q :: a, b)) <$> take_out p l
  end.
Lemma take_out_eq p l l1 l2 : take_out p l = Some (l1, l2) -> l = l1 ++ p :: l2.
Proof.
  revert l1. induction l as [|q l IH]; intros l1; cbn; [done|]. destruct (decide (p = q)) as [->|]; [by intros [= <- <-]|].
  destruct (take_out p l) as [[a b]|]; [|done]. intros [= <- <-]. cbn. f_equal. by apply IH.
Qed.

Definition move w (ch : choice) : option (option nat * world A V) :=
  match ch with
  | CArrive t r body =>
      match w_threads w !! t with
      | None => Some (None, mkWorld (w_ctx w) (w_pool w) (<[t := arrive r body]> (w_conns w)) (<[t := TStart]> (w_threads w))
                              (<[t := (r, body)]> (w_input w)))
      | Some _ => None
      end
  | CDrop => match w_pool w with [] => None | _ :: l => Some (None, mkWorld (w_ctx w) l (w_conns w) (w_threads w) (w_input w)) end
  | CStep t p =>
      match w_threads w !! t with
      | None => None
      | Some TStart =>
          match w_conns w !! t with
          | None => None
          | Some c =>
              match refusal (cn_req c) with
              | inl n =>
                  let '(o, c') := raw_WriteHeader n c in
                  Some (Some t, mkWorld (w_ctx w) (w_pool w) (<[t := c']> (w_conns w))
                                  (<[t := TEnd (match o with Norm _ => EDone | Throw v => EThrow v end)]> (w_threads w)) (w_input w))
              | inr i => Some (Some t, mkWorld (w_ctx w) (w_pool w) (w_conns w) (<[t := TGet i]> (w_threads w)) (w_input w))
              end
          end
      | Some (TGet i) =>
          match take_out p (w_pool w) with
          | Some (l1, l2) => Some (Some t, mkWorld (w_ctx w) (l1 ++ l2) (w_conns w) (<[t := TReset i p]> (w_threads w)) (w_input w))
          | None =>
              match w_ctx w !! p with
              | None => Some (Some t, mkWorld (<[p := newContext]> (w_ctx w)) (w_pool w) (w_conns w) (<[t := TReset i p]> (w_threads w)) (w_input w))
              | Some _ => None
              end
          end
      | Some (TPut q) => Some (Some t, mkWorld (w_ctx w) (q :: w_pool w) (w_conns w) (<[t := TEnd EDone]> (w_threads w)) (w_input w))
      | Some k =>
          match holds k with
          | None => None
          | Some q =>
              match w_ctx w !! q with
              | None => None
              | Some x =>
                  match target t k x with
                  | None => None
                  | Some j =>
                      match w_conns w !! j with
                      | None => None
                      | Some c =>
                          match lstep re_find sniff parse_form code e t k x c with
                          | None => None
                          | Some (k', x', c') =>
                              Some (Some t, mkWorld (<[q := x']> (w_ctx w)) (w_pool w) (<[j := c']> (w_conns w)) (<[t := k']> (w_threads w)) (w_input w))
                          end
                      end
                  end
              end
          end
      end
  end.
Lemma move_sound w ch o w' : move w ch = Some (o, w') ->
  match o with Some t => tstep re_find sniff parse_form code e t w w' | None => estep w w' end.
Proof.
  destruct ch as [t r body|t p|]; cbn [move].
  - destruct (w_threads w !! t) eqn:Ht; [done|]. intros [= <- <-]. by apply es_arrive.
  - destruct (w_threads w !! t) as [k|] eqn:Ht; [|done].
    assert (match holds k with
            | None => None
            | Some q =>
              match w_ctx w !! q with
              | None => None
              | Some x =>
                  match target t k x with
                  | None => None
                  | Some j =>
                      match w_conns w !! j with
                      | None => None
                      | Some c =>
                          match lstep re_find sniff parse_form code e t k x c with
                          | None => None
                          | Some (k', x', c') =>
                              Some (Some t, mkWorld (<[q := x']> (w_ctx w)) (w_pool w) (<[j := c']> (w_conns w)) (<[t := k']> (w_threads w)) (w_input w))
                          end
                      end
                  end
              end
            end = Some (o, w') -> match o with Some t => tstep re_find sniff parse_form code e t w w' | None => estep w w' end) as Hloc.
    { destruct (holds k) as [q|] eqn:Hh; [|done]. destruct (w_ctx w !! q) as [x|] eqn:Hx; [|done].
      destruct (target t k x) as [j|] eqn:Hj; [|done]. destruct (w_conns w !! j) as [c|] eqn:Hc; [|done].
      destruct (lstep _ _ _ _ _ _ _ _ _) as [[[k' x'] c']|] eqn:Hl; [|done]. intros [= <- <-]. by eapply ts_local. }
    destruct k as [|i|i q|i q|i q|q|q|q k|q g k|q k|q v k|q|en]; try exact Hloc.
    + destruct (w_conns w !! t) as [c|] eqn:Hc; [|done]. destruct (refusal (cn_req c)) as [n|i] eqn:Hr.
      * destruct (raw_WriteHeader n c) as [z c'] eqn:Hz. intros [= <- <-]. by eapply ts_refused.
      * intros [= <- <-]. by eapply ts_accepted.
    + destruct (take_out p (w_pool w)) as [[l1 l2]|] eqn:Hp.
      * intros [= <- <-]. eapply ts_reuse; [done|by apply take_out_eq].
      * destruct (w_ctx w !! p) eqn:Hx; [done|]. intros [= <- <-]. by apply ts_new.
    + intros [= <- <-]. by apply ts_put.
  - destruct (w_pool w) as [|p l] eqn:Hp; [done|]. intros [= <- <-]. by apply (es_drop w p []).
Qed.

Fixpoint moves w (l : list choice) : option (world A V) :=
  match l with
  | [] => Some w
  | ch :: l => match move w ch with Some (_, w) => moves w l | None => None end
  end.
Lemma moves_sound l0 w l w' : execution re_find sniff parse_form code e empty_world l0 w -> moves w l = Some w' ->
  reachable re_find sniff parse_form code e w'.
Proof.
  revert l0 w. induction l as [|ch l IH]; intros l0 w Hex; cbn [moves].
  - intros [= <-]. by exists l0.
  - destruct (move w ch) as [[o w1]|] eqn:Hm; [|done]. apply move_sound in Hm. destruct o as [t|].
    + apply (IH (l0 ++ [Some t])). by eapply ex_thread.
    + apply (IH (l0 ++ [None])). by eapply ex_env.
Qed.
Definition schedule (l : list choice) : option (world A V) := moves empty_world l.
Lemma schedule_reachable l w : schedule l = Some w -> reachable re_find sniff parse_form code e w.
Proof. apply (moves_sound []). constructor. Qed.
End Example.
