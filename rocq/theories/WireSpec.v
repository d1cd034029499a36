(** What arrives at the other end of a ResponseWriter: vocabulary of the
    statements about failing connections. *)
From Verif Require Import Base GoStr Header Ctx Wire.
Local Open Scope Z_scope.

(** a call of Write on a ResponseWriter: the data, how many bytes it said it had
    taken, and whether it reported no error *)
Record wcall := mkCall { wc_data : gostr; wc_n : nat; wc_ok : bool }.

Section Spec.
Context {S : Type} (u : writer S).

(** the writer goes from one state to another by use of its methods, and these
    are the calls of Write among them, in order *)
Inductive used : S -> list wcall -> S -> Prop :=
  | used_none s : used s [] s
  | used_put s cs s' h : used s cs s' -> used s cs (u_put u h s')
  | used_head s cs s' code o s'' : used s cs s' -> u_head u code s' = (o, s'') -> used s cs s''
  | used_write s cs s' d n ok s'' :
      used s cs s' -> u_write u d s' = (n, ok, s'') -> used s (cs ++ [mkCall d n ok]) s''.

(** The contract of io.Writer: Write takes a prefix of the data and reports an
    error if that is not all of it.  [recv] is what has arrived. *)
Record honest (recv : S -> gostr) : Prop := mkHonest {
  hon_write d s n ok s' : u_write u d s = (n, ok, s') ->
    (n <= length d)%nat /\ ((n < length d)%nat -> ok = false) /\ recv s' = recv s ++ take n d;
  hon_put h s : recv (u_put u h s) = recv s;
  hon_head code s : recv (snd (u_head u code s)) = recv s
}.
End Spec.

(** A was written as far as possible: pieces in order, all of which were taken
    before the last, and nothing after a failure. *)
Inductive written_out : list gostr -> list wcall -> bool -> Prop :=
  | wo_end : written_out [] [] true
  | wo_empty ds cs r : written_out ds cs r -> written_out ([] :: ds) cs r
  | wo_piece d ds cs r : d <> [] ->
      written_out ds cs r -> written_out (d :: ds) (mkCall d (length d) true :: cs) r
  | wo_fail d ds n ok : d <> [] -> ok && (n =? length d)%nat = false ->
      written_out (d :: ds) [mkCall d n ok] false.
