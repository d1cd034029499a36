(** C114: which segments a regexp segment of a route takes, and what its names get. *)
From Coq Require Import NArith.
From Verif Require Import Base GoStr Pattern Tree TreeSpec Header Router Ctx Engine EngineSpec ExampleRegexp ExampleRouter ExampleServe
  NetRegexp RegexpSpec RegexpFacts RegexpParse RegexpTop.
Local Open Scope nat_scope.

(** ** Examples *)
Definition fc_digit : re := RSet false [("0", "9")]%char.
Definition fc_digits : re := RCat (RPlus fc_digit) REmpty.
Lemma fc_class : atom_text fc_digit (L "[0-9]").
Proof.
  apply (as_class [("0", "9")]%char (L "0-9")); [done|].
  apply (cl_range "0" "9" ["0"%char] ["9"%char] [] []); [constructor; [done|]..|done|constructor].
  all: intros H; vm_compute in H; set_solver.
Qed.
Lemma fc_digits_text : alt_text fc_digits (L "[0-9]+").
Proof. constructor. apply (ct_cons (RPlus fc_digit) REmpty (L "[0-9]+") []); [|constructor]. apply (rt_plus fc_digit (L "[0-9]")); [apply fc_class|done]. Qed.
Lemma fc_group_text : cat_text (RCat (RGroup fc_digits) REmpty) (L "([0-9]+)").
Proof.
  apply (ct_cons (RGroup fc_digits) REmpty (L "([0-9]+)") []); [|constructor]. constructor.
  apply (as_group fc_digits (L "[0-9]+")), fc_digits_text.
Qed.
(** ((?:x|y)+) *)
Definition fc_char (c : ascii) : re := RSet false [(c, c)].
Definition fc_xy : re := RAlt (RCat (fc_char "x") REmpty) (RCat (fc_char "y") REmpty).
Definition fc_noncapturing : re := RCat (RGroup (RCat (RPlus fc_xy) REmpty)) REmpty.
Lemma fc_char_text c : bool_decide (N_of_ascii c < 128)%N && negb (contains_byte c (L "()[\.^$*+?{|")) = true ->
  cat_text (RCat (fc_char c) REmpty) [c].
Proof.
  rewrite andb_true_iff, negb_true_iff, bool_decide_eq_true. intros [H1 H2]. apply GoStrFacts.contains_byte_false in H2.
  apply (ct_cons (fc_char c) REmpty [c] []); [|constructor]. constructor. by constructor.
Qed.
Lemma fc_noncapturing_text : cat_text fc_noncapturing (L "((?:x|y)+)").
Proof.
  apply (ct_cons _ REmpty (L "((?:x|y)+)") []); [|constructor]. constructor. apply (as_group _ (L "(?:x|y)+")). constructor.
  apply (ct_cons _ REmpty (L "(?:x|y)+") []); [|constructor]. apply (rt_plus fc_xy (L "(?:x|y)")); [|done].
  apply (as_plain fc_xy (L "x|y")). apply (at_or _ _ (L "x") (L "y")); [by apply fc_char_text|constructor; by apply fc_char_text].
Qed.
Definition fc_code (h : handler nat) : prog gostr :=
  PDo OParams (fun p => PDo (OWrite (match p with Some m => default (L "none") (m !! L "id") | None => L "nil" end)) (fun _ => PRet)).
Notation fc_serve e path :=
  (ServeHTTP go_find ex_sniff ex_form fc_code e 0 (newContext : ctxobj nat gostr) (arrive (get path) no_body)).

(** ** C114 *)
(** C114 is false: an expression that is not anchored takes every segment with such a
    part, and the name gets that part. *)
Theorem C114_refuted :
  exists e, engine_of go_ok [RNew; RHandle 0 0 (L "/u/<id ~ ([0-9]+)>") [IFuncCtx 0]] 0 [] e /\
    (let '(en, _, c) := fc_serve e (L "/u/x12y") in (en, rw_body (cn_rw c))) = (EDone, L "12") /\
    alt_text (RCat (RGroup fc_digits) REmpty) (L "([0-9]+)") /\
    forall gs, ~ describes (RCat (RGroup fc_digits) REmpty) [] (L "x12y") [] gs.
Proof.
  edestruct (with_engine_split go_ok [RNew; RHandle 0 0 (L "/u/<id ~ ([0-9]+)>") [IFuncCtx 0]] [] (fun e =>
    let '(en, _, c) := fc_serve e (L "/u/x12y") in (en, rw_body (cn_rw c)))) as (e & He & Hs); [vm_compute; reflexivity|].
  exists e. split_and!; [exact He|exact Hs|constructor; apply fc_group_text|].
  intros gs Hd. apply ways_complete in Hd; [|done]. vm_compute in Hd. by apply elem_of_nil in Hd.
Qed.
Print Assumptions C114_refuted.
(** Nor does an expression take what it describes if it has parentheses that are not
    groups: such a segment is registered, with a name for each parenthesis, and takes
    nothing. *)
Theorem C114_parentheses_refuted :
  exists p, analyzePattern go_ok (L "<a,b ~ ^((?:x|y)+)$>") = Ok p /\ p_typ p = PRegexp /\ p_reg p = Some (L "^((?:x|y)+)$") /\
    cat_text fc_noncapturing (L "((?:x|y)+)") /\ describes fc_noncapturing [] (L "xy") [] [L "xy"] /\
    forall x, ~ seg_accepts go_find p x.
Proof.
  eexists. split; [vm_compute; reflexivity|]. split; [done|]. split; [done|]. split; [apply fc_noncapturing_text|]. split.
  - assert (sound (ways fc_noncapturing) fc_noncapturing) as Hs by by apply ways_sound.
    destruct (Hs [] (L "xy") [] [L "xy"]) as (x & Hx & Hd); [vm_compute; left|]. rewrite app_nil_r in Hx. by subst x.
  - intros x Hx. eapply (anchored_segment (L "<a,b ~ ^((?:x|y)+)$>") _ (L "((?:x|y)+)") fc_noncapturing) in Hx as [Hg _];
      [|vm_compute; reflexivity|done|done|apply fc_noncapturing_text]. done.
Qed.
Print Assumptions C114_parentheses_refuted.

(** Which segments are taken: those with a part that the expression describes, if it has
    as many groups as the segment has names. *)
Theorem C114_accepts_partial :
  forall s p t e x, regexp_segment s p t e ->
  seg_accepts go_find p x <-> groups e = length (p_wild p) /\ exists u m gs, occurs e x u m gs.
Proof. exact segment_accepts. Qed.
Print Assumptions C114_accepts_partial.
(** The names get the groups of the part that begins first. *)
Theorem C114_captures_partial :
  forall s p t e x gs, regexp_segment s p t e -> captures go_find p x gs ->
  length gs = length (p_wild p) /\ exists u m, first_occurs e x u m gs.
Proof. exact segment_captures. Qed.
Print Assumptions C114_captures_partial.
(** Expressions between "^" and "$", without alternatives outside of parentheses, take
    exactly the segments they describe. *)
Theorem C114_anchored_partial :
  forall s p t b x, analyzePattern go_ok s = Ok p -> p_typ p = PRegexp -> p_reg p = Some (L "^" ++ t ++ L "$") -> cat_text b t ->
  (seg_accepts go_find p x <-> groups b = length (p_wild p) /\ exists gs, describes b [] x [] gs) /\
  forall gs, captures go_find p x gs -> describes b [] x [] gs.
Proof. exact anchored_segment. Qed.
Print Assumptions C114_anchored_partial.
(** With one group around everything the name gets the segment. *)
Theorem C114_grouped_partial :
  forall s p t b x, analyzePattern go_ok s = Ok p -> p_typ p = PRegexp -> p_reg p = Some (L "^(" ++ t ++ L ")$") ->
  alt_text b t -> groups b = 0 ->
  (seg_accepts go_find p x <-> length (p_wild p) = 1 /\ describes b [] x [] []) /\
  forall gs, captures go_find p x gs -> gs = [x].
Proof. exact grouped_segment. Qed.
Print Assumptions C114_grouped_partial.
(** With one group around a repeated class, not anchored, the name gets the first run of
    its characters, all of it. *)
Theorem C114_run_partial :
  forall s p t neg rs x gs, analyzePattern go_ok s = Ok p -> p_typ p = PRegexp -> p_reg p = Some (L "(" ++ t ++ L "+)") ->
  atom_text (RSet neg rs) t -> captures go_find p x gs ->
  exists u m v, gs = [m] /\ x = u ++ m ++ v /\ first_occurs (RPlus (RSet neg rs)) x u m [] /\ forall y w, v = y ++ w -> ~ one_of neg rs y w.
Proof. exact run_segment. Qed.
Print Assumptions C114_run_partial.
(** A request that fits a route has, for each regexp segment of it, a segment with such
    a part. *)
Theorem C114_route_partial :
  forall A (v : route A) r i s p t e, fits go_ok go_find v r ->
  uri_segs (rt_variant v) !! i = Some s -> regexp_segment s p t e ->
  exists x u m gs, path_segs (rq_path r) !! i = Some x /\ occurs e x u m gs /\ length gs = length (p_wild p).
Proof. exact fits_regexp. Qed.
Print Assumptions C114_route_partial.
(** A spelling has one reading. *)
Theorem C114_one_reading :
  forall t e e', alt_text e t -> alt_text e' t -> e = e'.
Proof. intros t e e' H H'. apply parse_text in H as [H _], H' as [H' _]. congruence. Qed.
Print Assumptions C114_one_reading.
(** No segment is registered whose expression closes a group that it did not open, even if
    there are as many parentheses as names. *)
Theorem C114_stray :
  forall s p e u v, alt_text e u -> analyzePattern go_ok s = Ok p -> p_reg p <> Some (u ++ L ")" ++ v).
Proof. exact segment_stray. Qed.
Print Assumptions C114_stray.
Example C114_stray_case :
  alt_text (RCat (fc_char "x") REmpty) (L "x") /\ partternRegexp (L "<a ~ x)(y>") 1 = Ok (Some (L "x)(y")) /\
  analyzePattern go_ok (L "<a ~ x)(y>") = Panic (L "regexp: Compile error").
Proof. split; [constructor; by apply fc_char_text|]. split; vm_compute; reflexivity. Qed.

(** The hypotheses are met: [^([0-9]+)$] takes the segments of digits, and no others. *)
Lemma fc_digits_describes x : describes fc_digits [] x [] [] <-> x <> [] /\ Forall (fun a => (48 <= N_of_ascii a <= 57)%N) x.
Proof.
  assert (forall pre x post gs, describes fc_digit pre x post gs -> gs = [] /\ exists a, x = [a] /\ (48 <= N_of_ascii a <= 57)%N) as Hd.
  { intros pre y post gs H. inversion H as [|? ? ? ? ? Ho| | | | | | | | | | |]; subst. split; [done|].
    inversion Ho as [a ? _ Hl|]; subst; [|done]. exists a. split; [done|].
    destruct Hl as (lo & hi & Hin & Hr). apply elem_of_list_singleton in Hin. injection Hin as -> ->. done. }
  assert (forall a pre post, (48 <= N_of_ascii a <= 57)%N -> describes fc_digit pre [a] post []) as Hc.
  { intros a pre post Ha. do 2 constructor; [lia|]. exists "0"%char, "9"%char. split; [by left|done]. }
  assert (forall r pre y post gs, describes r pre y post gs -> r = RStar fc_digit -> Forall (fun a => (48 <= N_of_ascii a <= 57)%N) y) as Hs.
  { intros r pre y post gs H. induction H; intros [=]; subst; [constructor|].
    match goal with H : describes fc_digit _ _ _ _ |- _ => apply Hd in H as (_ & a' & -> & Ha) end. constructor; auto. }
  assert (forall y pre post, Forall (fun a => (48 <= N_of_ascii a <= 57)%N) y -> describes (RStar fc_digit) pre y post []) as Hs'.
  { intros y. induction y as [|a y IH]; intros pre post Hy; [constructor|]. inversion Hy; subst.
    apply (d_again fc_digit pre [a] y post); auto. }
  split.
  - intros H. inversion H as [| | | |? ? ? x1 x2 ? ga gb H1 H2| | | | | | | |]; subst. inversion H2; subst. rewrite app_nil_r.
    inversion H1; subst. match goal with H : describes fc_digit _ _ _ _ |- _ => apply Hd in H as (_ & a & -> & Ha) end.
    split; [done|]. constructor; [done|]. eapply Hs; [eassumption|done].
  - intros [Hne Hx]. destruct x as [|a x]; [done|]. inversion Hx; subst.
    pose proof (d_plus fc_digit [] [a] x [] (Hc a [] (x ++ []) ltac:(done)) (Hs' x [a] [] ltac:(done))) as Hp.
    pose proof (d_cat (RPlus fc_digit) REmpty [] (a :: x) [] [] [] [] Hp (d_empty _ _)) as Hq. by rewrite app_nil_r in Hq.
Qed.
Theorem C114_digits_partial :
  exists p, analyzePattern go_ok (L "<id ~ ^([0-9]+)$>") = Ok p /\ p_wild p = [L "id"] /\ forall x,
    (seg_accepts go_find p x <-> x <> [] /\ Forall (fun a => (48 <= N_of_ascii a <= 57)%N) x) /\
    forall gs, captures go_find p x gs -> gs = [x].
Proof.
  eexists. split; [vm_compute; reflexivity|]. split; [done|]. intros x.
  destruct (grouped_segment (L "<id ~ ^([0-9]+)$>") _ (L "[0-9]+") fc_digits x ltac:(vm_compute; reflexivity)
    ltac:(done) ltac:(done) fc_digits_text ltac:(done)) as [H1 H2].
  split; [|exact H2]. rewrite <- fc_digits_describes, H1. split; [by intros []|done].
Qed.
Print Assumptions C114_digits_partial.
(** a segment that meets the hypotheses of the other theorems *)
Example C114_case :
  exists p, regexp_segment (L "<id ~ ([0-9]+)>") p (L "([0-9]+)") (RCat (RGroup fc_digits) REmpty) /\
    captures go_find p (L "x12y") [L "12"] /\ ~ seg_accepts go_find p (L "xy").
Proof.
  eexists. split.
  - split; [vm_compute; reflexivity|]. split; [done|]. split; [done|]. constructor. apply fc_group_text.
  - split.
    + exists (L "([0-9]+)"), (L "12"). split; [done|]. split; [vm_compute; reflexivity|done].
    + intros (gs & reg & m & Hr & Hf & _). injection Hr as <-. vm_compute in Hf. discriminate.
Qed.
