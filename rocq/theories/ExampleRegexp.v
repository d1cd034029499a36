(** A tiny concrete regexp engine for the examples: it knows "^([0-9]+)$",
    "^([a-z]+)$" and "70|80" and behaves on them as Go's package regexp does. *)
From Verif Require Import Base GoStr.

Definition is_digit (a : ascii) : bool := ((48 <=? byte_of a) && (byte_of a <=? 57))%N.
Definition is_lower (a : ascii) : bool := ((97 <=? byte_of a) && (byte_of a <=? 122))%N.
Definition all_of (f : ascii -> bool) (s : gostr) : bool := negb (seqb s []) && forallb f s.

Definition ex_ok (reg : gostr) : bool :=
  seqb reg (L "^([0-9]+)$") || seqb reg (L "^([a-z]+)$") || seqb reg (L "70|80").
Definition ex_find (reg s : gostr) : option (list gostr) :=
  if seqb reg (L "^([0-9]+)$") then if all_of is_digit s then Some [s; s] else None
  else if seqb reg (L "^([a-z]+)$") then if all_of is_lower s then Some [s; s] else None
  else if seqb reg (L "70|80") then
    match index_str (L "70") s, index_str (L "80") s with
    | None, None => None
    | Some _, None => Some [L "70"]
    | None, Some _ => Some [L "80"]
    | Some i, Some j => if i <? j then Some [L "70"] else Some [L "80"]
    end
  else None.

(** Evaluation of a match without normalising the map of parameters. *)
From Verif Require Import Pattern Tree TreeSpec.
Definition fst_id {H} (x : option (enode H) * option Params) : option (enode H) := fst x.
Definition has_params {H} (x : option (enode H) * option Params) : bool :=
  match snd x with Some _ => true | None => false end.
Definition the_params {H} (x : option (enode H) * option Params) : Params :=
  match snd x with Some m => m | None => ∅ end.
Lemma match_split {H} (x : option (enode H) * option Params) e :
  fst_id x = Some e -> has_params x = true -> x = (Some e, Some (the_params x)).
Proof. destruct x as [? [m|]]; unfold fst_id, has_params, the_params; simpl; congruence. Qed.

(** Evaluation of the analysed segments. *)
Fixpoint calc_pats (re_ok : gostr -> bool) (ss : list gostr) : list pat :=
  match ss with
  | [] => []
  | s :: ss' => match analyzePattern re_ok s with Ok p => p :: calc_pats re_ok ss' | _ => [] end
  end.
Definition calc_route re_ok u := calc_pats re_ok (uri_segs u).
Lemma calc_pats_ok re_ok ss : length (calc_pats re_ok ss) =? length ss = true ->
  Forall2 (fun s p => analyzePattern re_ok s = Ok p) ss (calc_pats re_ok ss).
Proof.
  induction ss as [|s ss IH]; simpl; [by constructor|].
  destruct (analyzePattern re_ok s) as [p| |] eqn:Hp; simpl; try discriminate.
  intros Hl. constructor; auto.
Qed.
Lemma calc_route_ok re_ok u : length (calc_route re_ok u) =? length (uri_segs u) = true ->
  uri_route re_ok u (calc_route re_ok u).
Proof. apply calc_pats_ok. Qed.
Definition calc_table {H} re_ok (us : list (gostr * list H)) := map (fun u => calc_route re_ok (fst u)) us.
Lemma calc_table_ok {H} re_ok (us : list (gostr * list H)) :
  forallb (fun u => length (calc_route re_ok (fst u)) =? length (uri_segs (fst u))) us = true ->
  routes_of re_ok us (calc_table re_ok us).
Proof.
  unfold routes_of, calc_table. induction us as [|u us IH]; simpl; [constructor|].
  rewrite andb_true_iff. intros [??]. constructor; [by apply calc_route_ok|auto].
Qed.
