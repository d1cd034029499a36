(** Facts about listings of directories. *)
From Coq Require Import Sorted.
From Verif Require Import Base GoStr Header Ctx Util UtilSpec UtilFacts Listing ListingSpec ListingFacts CondSpec NetServe NetRedirect NetDir DirSpec.
From Verif Require NetRedirectFacts QueryFacts NetServeFacts.
Local Open Scope Z_scope.

(** ** Addresses *)
Definition safe_byte (a c : ascii) : bool :=
  negb (existsb (Ascii.eqb c) ["<"; ">"; """"; "'"; "?"; "#"]%char) &&
  (negb (Ascii.eqb c "&") || Ascii.eqb a "&") && (negb (Ascii.eqb c "/") || Ascii.eqb a "/").
Lemma path_byte_spec a : Forall (fun c => safe_byte a c = true) (path_byte a) /\ forall r, pct_decode (path_byte a ++ r) =
  match pct_decode r with Some x => Some (a :: x) | None => None end.
Proof.
  assert (forallb (safe_byte a) (path_byte a) &&
    (if path_kept a then negb (Ascii.eqb a "%") else
       bool_decide (hex_val (upper_hex (byte_of a / 16)) = Some (byte_of a / 16)%N) &&
       bool_decide (hex_val (upper_hex (byte_of a mod 16)) = Some (byte_of a mod 16)%N)) = true) as H.
  { revert a. apply byte_all. vm_compute. reflexivity. }
  apply andb_prop in H as [H1 H2]. split.
  - apply Forall_forall. intros c Hc. rewrite forallb_forall in H1. by apply H1, elem_of_list_In.
  - intros r. unfold path_byte in *. destruct (path_kept a).
    + cbn [app pct_decode]. destruct (Ascii.eqb a "%"); [done|]. done.
    + apply andb_prop in H2 as [H2 H3]. apply bool_decide_eq_true in H2, H3.
      unfold pct_byte. cbn [app pct_decode]. rewrite H2, H3. change (Ascii.eqb "%" "%") with true. cbn [andb].
      replace (16 * (byte_of a / 16) + byte_of a mod 16)%N with (byte_of a) by (pose proof (N.div_mod (byte_of a) 16); lia).
      unfold byte_of. rewrite ascii_N_embedding. done.
Qed.
Notation escaped := (flat_map path_byte).
Lemma escaped_decode s : pct_decode (escaped s) = Some s.
Proof. induction s as [|a s IH]; [done|]. cbn [flat_map]. by rewrite (proj2 (path_byte_spec a)), IH. Qed.
Lemma escaped_in s c : c ∈ escaped s -> exists a, a ∈ s /\ safe_byte a c = true.
Proof.
  intros H. apply elem_of_list_In, in_flat_map in H as (a & Ha & Hc). exists a. split; [by apply elem_of_list_In|].
  destruct (path_byte_spec a) as [Hs _]. rewrite Forall_forall in Hs. by apply Hs, elem_of_list_In.
Qed.
Lemma escaped_no s c : c ∈ ["<"; ">"; """"; "'"; "?"; "#"]%char -> c ∉ escaped s.
Proof.
  intros Hc (a & _ & H)%escaped_in. unfold safe_byte in H. apply andb_prop in H as [H _]. apply andb_prop in H as [H _]. apply negb_true_iff in H.
  assert (existsb (Ascii.eqb c) ["<"; ">"; """"; "'"; "?"; "#"]%char = true) as E; [|congruence].
  apply existsb_exists. exists c. split; [by apply elem_of_list_In|by apply Ascii.eqb_eq].
Qed.
Lemma escaped_same s c : c = "&"%char \/ c = "/"%char -> c ∈ escaped s -> c ∈ s.
Proof.
  intros Hc (a & Ha & H)%escaped_in. unfold safe_byte in H. rewrite !andb_true_iff, !orb_true_iff, !negb_true_iff in H. destruct H as [[_ H1] H2].
  destruct Hc as [->| ->].
  - destruct H1 as [H1|H1%Ascii.eqb_eq]; [by rewrite Ascii.eqb_refl in H1|by subst].
  - destruct H2 as [H2|H2%Ascii.eqb_eq]; [by rewrite Ascii.eqb_refl in H2|by subst].
Qed.
Lemma EscapedPath_cases p : EscapedPath p = escaped p \/ p = L "*" /\ EscapedPath p = L "*".
Proof. unfold EscapedPath. destruct (seqb p (L "*")) eqn:E; [right|by left]. by apply seqb_true in E. Qed.
Lemma EscapedPath_no p c : c ∈ ["<"; ">"; """"; "'"; "?"; "#"]%char -> c ∉ EscapedPath p.
Proof.
  intros Hc. destruct (EscapedPath_cases p) as [->|[_ ->]]; [by apply escaped_no|]. intros ->%elem_of_list_singleton.
  revert Hc. apply (bool_decide_eq_false _). reflexivity.
Qed.
Lemma EscapedPath_decode p : pct_decode (EscapedPath p) = Some p.
Proof. destruct (EscapedPath_cases p) as [->|[-> ->]]; [apply escaped_decode|done]. Qed.
Lemma url_String_cases p : url_String p = EscapedPath p \/ url_String p = L "./" ++ EscapedPath p.
Proof. unfold url_String. destruct (index_byte ":" (EscapedPath p)); [|by left]. destruct (existsb _ _); [by left|by right]. Qed.
Lemma url_String_scheme p a b : url_String p = a ++ L ":" ++ b -> "/"%char ∈ a.
Proof.
  unfold url_String. destruct (index_byte ":" (EscapedPath p)) as [i|] eqn:E.
  - destruct (existsb (Ascii.eqb "/") (take i (EscapedPath p))) eqn:Ex.
    + intros H. apply existsb_exists in Ex as (c & Hc & <-%Ascii.eqb_eq). apply elem_of_list_In in Hc.
      apply QueryFacts.index_byte_some in E as [E1 E2]. set (t := take i (EscapedPath p)) in *.
      assert (t `prefix_of` a) as [k ->]; [|apply elem_of_app; by left].
      rewrite E2 in H. clear E2. clearbody t. revert a H. clear Hc. induction t as [|x t IH]; intros a H; [apply prefix_nil|].
      destruct a as [|y a]; [injection H as -> _; exfalso; apply E1; left|]. injection H as -> H. apply prefix_cons, IH; [|done].
      intros Hx. apply E1. by right.
    + destruct a as [|x [|y a]]; [intros [= ]|intros [= ]|]. intros [= <- <- _]. right; left.
  - intros H. apply QueryFacts.index_byte_none in E. destruct E. rewrite H. apply elem_of_app. right. left.
Qed.
Lemma url_String_no p c : c ∈ ["<"; ">"; """"; "'"; "?"; "#"]%char -> c ∉ url_String p.
Proof.
  intros Hc. destruct (url_String_cases p) as [->| ->]; [by apply EscapedPath_no|]. intros [H|H]%elem_of_app; [|by apply (EscapedPath_no p c)].
  revert Hc H. intros Hc H. apply elem_of_cons in H as [->|H%elem_of_list_singleton]; [|subst c]; revert Hc; apply (bool_decide_eq_false _); reflexivity.
Qed.
Lemma attr_app x h : Forall (fun c => c ∉ ["<"; ">"; "&"; """"; "'"]%char) x -> attr_reads h h -> attr_reads (x ++ h) (x ++ h).
Proof. induction 1; intros Hh; [done|]. apply ar_plain; auto. Qed.
Definition letterb (c : ascii) : bool :=
  let n := N_of_ascii c in (((48 <=? n) && (n <=? 57)) || ((65 <=? n) && (n <=? 90)) || ((97 <=? n) && (n <=? 122)))%N.
Lemma letterb_spec c : letterb c = true <-> letter_or_digit c.
Proof. unfold letterb, letter_or_digit. rewrite !orb_true_iff, !andb_true_iff, !N.leb_le. lia. Qed.
Lemma path_byte_head a : ~ letter_or_digit a -> exists c r, path_byte a = c :: r /\ ~ letter_or_digit c /\ c <> "#"%char.
Proof.
  intros Ha. assert (letterb a || match path_byte a with c :: _ => negb (letterb c) && negb (Ascii.eqb c "#") | [] => false end = true) as H.
  { clear Ha. revert a. apply byte_all. vm_compute. reflexivity. }
  apply orb_prop in H as [H|H]; [by apply letterb_spec in H|]. destruct (path_byte a) as [|c r]; [done|]. exists c, r. split; [done|].
  apply andb_prop in H as [H1 H2]. rewrite negb_true_iff in H1, H2. split; [rewrite <- letterb_spec; congruence|]. intros ->. by rewrite Ascii.eqb_refl in H2.
Qed.
Lemma escaped_attr s : amp_apart s -> attr_reads (escaped s) (escaped s).
Proof.
  induction s as [|a s IH]; intros Hs; [constructor|]. cbn [flat_map].
  assert (attr_reads (escaped s) (escaped s)) as Hr by (apply IH; intros x c b E; apply (Hs (a :: x) c b); by rewrite E).
  destruct (decide (a = "&"%char)) as [->|Hn].
  - change (path_byte "&") with (["&"%char] : gostr). cbn [app]. apply ar_amp; [|done]. intros c Hc. destruct s as [|d s]; [discriminate Hc|].
    cbn [flat_map] in Hc. destruct (path_byte_head d) as (c' & r & E & H1 & H2); [by apply (Hs [] d s)|]. rewrite E in Hc. by injection Hc as <-.
  - apply attr_app; [|done]. apply Forall_forall. intros c Hc Hbad.
    destruct (decide (c = "&"%char)) as [->|Hc'].
    + apply Hn. assert ("&"%char ∈ escaped [a]) as Hx by (cbn [flat_map]; by rewrite app_nil_r). apply escaped_same in Hx; [|by left].
      by apply elem_of_list_singleton in Hx.
    + apply (escaped_no [a] c); [|cbn [flat_map]; by rewrite app_nil_r]. rewrite !elem_of_cons, elem_of_nil in *. tauto.
Qed.
Lemma shown_amp e : amp_apart (en_name e) -> amp_apart (shown e).
Proof.
  unfold shown. destruct (en_dir e); [|by rewrite app_nil_r]. intros H x c b E.
  destruct (@exists_last _ (c :: b) ltac:(done)) as (b' & z & Ez). 
  assert (en_name e = x ++ "&"%char :: b' /\ z = "/"%char) as [E1 ->].
  { assert (en_name e ++ L "/" = (x ++ "&"%char :: b') ++ [z]) as E2 by (rewrite E, Ez, <- app_assoc; done). apply app_inj_tail in E2 as [-> <-]. done. }
  destruct b' as [|d b']; [|injection Ez as -> _; by apply (H x d b')].
  injection Ez as -> _. unfold letter_or_digit. change (N_of_ascii "/") with 47%N. lia.
Qed.
Lemma url_String_reads p : amp_apart p -> attr_reads (url_String p) (url_String p).
Proof.
  intros Hp. assert (attr_reads (EscapedPath p) (EscapedPath p)) as H.
  { destruct (EscapedPath_cases p) as [->|[_ ->]]; [by apply escaped_attr|]. apply ar_plain; [apply (bool_decide_eq_false _); reflexivity|constructor]. }
  destruct (url_String_cases p) as [->| ->]; [done|]. apply attr_app; [|done].
  apply Forall_cons_2; [apply (bool_decide_eq_false _); reflexivity|]. apply Forall_cons_2; [apply (bool_decide_eq_false _); reflexivity|constructor].
Qed.
Lemma shown_split e : file_like (en_name e) -> split_byte "/" (EscapedPath (shown e)) = [EscapedPath (en_name e)] \/
  split_byte "/" (EscapedPath (shown e)) = [escaped (en_name e); []].
Proof.
  intros (Hn & Hs & _). unfold shown. destruct (en_dir e).
  - right. destruct (EscapedPath_cases (en_name e ++ L "/")) as [->|[E _]].
    + rewrite flat_map_app. change (escaped (L "/")) with (["/"%char] : gostr). rewrite (split_front "/" (escaped (en_name e)) []); [done|].
      intros Hx. apply Hs. apply escaped_same; [by right|done].
    + exfalso. destruct (en_name e) as [|x [|y s]]; [done|discriminate E|discriminate E].
  - left. rewrite app_nil_r. apply split_whole. destruct (EscapedPath_cases (en_name e)) as [->|[_ ->]].
    + intros Hx. apply Hs. apply escaped_same; [by right|done].
    + by intros ?%elem_of_list_singleton.
Qed.
Lemma shown_leads e base : file_like (en_name e) -> leads base (url_String (shown e)) (base ++ shown e).
Proof.
  intros Hf. pose proof Hf as (Hn & Hs & Hd & Hdd). exists (EscapedPath (shown e)), (shown e).
  split; [apply url_String_cases|]. split; [apply url_String_no; set_solver|]. split; [apply url_String_no; set_solver|].
  assert (forall q, q = L "." \/ q = L ".." -> q ∉ split_byte "/" (EscapedPath (shown e))) as Hq.
  { intros q Hq Hin. assert (q <> []) as Hne by (by destruct Hq as [->| ->]). assert (pct_decode q = Some q) as Hdec by (by destruct Hq as [->| ->]).
    assert (q = en_name e) as ->; [|by destruct Hq].
    destruct (shown_split e Hf) as [E|E]; rewrite E in Hin.
    - apply elem_of_list_singleton in Hin. rewrite Hin, EscapedPath_decode in Hdec. injection Hdec as Hx. by rewrite Hin, <- Hx.
    - apply elem_of_cons in Hin as [Hin|Hin%elem_of_list_singleton]; [|done]. rewrite Hin, escaped_decode in Hdec. injection Hdec as Hx. by rewrite Hin, <- Hx. }
  split.
  { destruct (url_String_cases (shown e)) as [->| ->]; [|done]. intros Hh. destruct (EscapedPath (shown e)) as [|x s] eqn:E; [done|]. injection Hh as ->.
    pose proof (EscapedPath_decode (shown e)) as Hx. rewrite E in Hx. cbn [pct_decode] in Hx. change (Ascii.eqb "/" "%") with false in Hx. cbv iota in Hx.
    destruct (pct_decode s); [|done]. injection Hx as Hx. unfold shown in Hx. destruct (en_name e) as [|y n]; [done|]. injection Hx as Hy _. rewrite <- Hy in Hs. apply Hs. left. }
  split; [apply url_String_scheme|]. split; [apply Hq; by left|]. split; [apply Hq; by right|]. split; [apply EscapedPath_decode|done].
Qed.

(** ** The page *)
Lemma replaced_no s : "<"%char ∉ flat_map html_replace s.
Proof.
  intros H. apply elem_of_list_In, in_flat_map in H as (a & _ & H). apply elem_of_list_In in H. revert H. apply (bool_decide_eq_false _).
  apply negb_true_iff. revert a. apply byte_all. vm_compute. reflexivity.
Qed.
Definition anchor (e : entry) : gostr * gostr := (url_String (shown e), flat_map html_replace (shown e)).
Lemma dir_line_is e : dir_line e = L "<a href=""" ++ (anchor e).1 ++ L """>" ++ (anchor e).2 ++ L "</a>" ++ newline.
Proof. unfold dir_line, anchor, shown. destruct (en_dir e); [done|]. by rewrite app_nil_r. Qed.
Lemma lines_anchors l : anchors (concat (map dir_line l)) (map anchor l).
Proof.
  induction l as [|e l IH]; [constructor|]. cbn [map concat]. rewrite dir_line_is, <- !app_assoc. cbn [app]. rewrite <- ?app_assoc.
  apply (an_cons (anchor e).1 (anchor e).2); [apply url_String_no; set_solver|apply replaced_no|done].
Qed.
Lemma dir_page l : page (concat ([L "<pre>" ++ [ascii_of_nat 10]] ++ map dir_line l ++ [L "</pre>" ++ [ascii_of_nat 10]])) (map anchor l).
Proof.
  exists (concat (map dir_line l)). split; [|apply lines_anchors]. rewrite !concat_app. cbn [concat]. rewrite !app_nil_r, <- app_assoc. done.
Qed.
Lemma anchor_links e base : links amp_apart base (anchor e) e.
Proof.
  split; [apply (NetRedirectFacts.page_reads (fun _ => None))|]. intros Hf Ha. exists (url_String (shown e)). split; [by apply url_String_reads, shown_amp|by apply shown_leads].
Qed.

(** ** The order *)
Lemma insert_entry_perm x l : insert_entry x l ≡ₚ x :: l.
Proof. induction l as [|y l IH]; [done|]. cbn [insert_entry]. destruct (str_ltb _ _); [|done]. rewrite IH. apply Permutation_swap. Qed.
Lemma sort_entries_perm l : sort_entries l ≡ₚ l.
Proof. induction l as [|x l IH]; [done|]. cbn [sort_entries foldr]. fold (sort_entries l). by rewrite insert_entry_perm, IH. Qed.
Lemma sort_entries_names l : map en_name (sort_entries l) = sort_strings (map en_name l).
Proof.
  induction l as [|x l IH]; [done|]. cbn [sort_entries foldr map sort_strings]. fold (sort_entries l). rewrite <- IH. generalize (sort_entries l) as k. clear.
  induction k as [|y k IH]; [done|]. cbn [insert_entry map insert_str]. destruct (str_ltb _ _); [|done]. cbn [map]. by rewrite IH.
Qed.
Lemma sort_entries_sorted l : NoDup (map en_name l) -> StronglySorted bytes_lt (map en_name (sort_entries l)).
Proof. intros H. rewrite sort_entries_names. by apply sort_strings_sorted. Qed.

(** ** Pages are read in one way *)
Lemma cut_first c (x y x' y' : gostr) : c ∉ x -> c ∉ x' -> x ++ c :: y = x' ++ c :: y' -> x = x' /\ y = y'.
Proof.
  revert x'. induction x as [|a x IH]; intros [|a' x'] H H' E; cbn in E.
  - by injection E.
  - injection E as -> _. destruct H'. left.
  - injection E as -> _. destruct H. left.
  - injection E as -> E. destruct (IH x') as [-> ->]; [set_solver|set_solver|done|done].
Qed.
Lemma anchors_fun s l : anchors s l -> forall l', anchors s l' -> l = l'.
Proof.
  induction 1 as [|h t s l Hh Ht Hs IH]; intros l' H'.
  - remember ([] : gostr) as b eqn:Eb. destruct H'; [done|discriminate Eb].
  - remember (L "<a href=""" ++ h ++ L """>" ++ t ++ L "</a>" ++ newline ++ s) as b eqn:Eb. destruct H' as [|h' t' s' k' Hh' Ht' Hs']; [discriminate Eb|].
    change (L """>" ++ ?z) with (""""%char :: ">"%char :: z) in Eb. change (L "</a>" ++ ?z) with ("<"%char :: L "/a>" ++ z) in Eb.
    apply app_inv_head in Eb. apply cut_first in Eb as [-> Eb]; [|done|done]. injection Eb as Eb. apply cut_first in Eb as [-> Eb]; [|done|done].
    injection Eb as ->. by rewrite (IH _ Hs').
Qed.
Lemma page_fun b l l' : page b l -> page b l' -> l = l'.
Proof.
  intros (s & E & H) (s' & E' & H'). assert (s = s') as ->; [|by eapply anchors_fun]. rewrite E in E'. apply app_inv_head, app_inv_head, app_inv_tail in E'. done.
Qed.
Lemma reads_fun h t : reads_as h t -> forall t', reads_as h t' -> t = t'.
Proof.
  induction 1 as [|e c h t He H IH|c h t Hc H IH]; intros t' H'.
  - remember ([] : gostr) as b eqn:Eb. destruct H' as [|e' c' h' k He' _|]; [done| |discriminate Eb]. destruct e'; [|discriminate Eb]. unfold entities in He'. rewrite !elem_of_cons, elem_of_nil in He'. naive_solver.
  - assert (exists e0, e = "&"%char :: e0) as [e0 E0]. { unfold entities in He. rewrite !elem_of_cons, elem_of_nil in He. naive_solver. }
    remember (e ++ h) as b eqn:Eb. destruct H' as [|e' c' h' k He' H'|c' h' k Hc' H'].
    + by rewrite E0 in Eb.
    + unfold entities in He, He'. rewrite !elem_of_cons, elem_of_nil in He, He'.
      destruct He as [[= -> ->]|[[= -> ->]|[[= -> ->]|[[= -> ->]|[[= -> ->]|[]]]]]];
        destruct He' as [[= -> ->]|[[= -> ->]|[[= -> ->]|[[= -> ->]|[[= -> ->]|[]]]]]]; try discriminate Eb;
        apply app_inv_head in Eb; subst; f_equal; by apply IH.
    + rewrite E0 in Eb. injection Eb as -> _. destruct Hc'. set_solver.
  - remember (c :: h) as b eqn:Eb. destruct H' as [|e' c' h' k He' H'|c' h' k Hc' H']; [discriminate Eb| |].
    + assert (exists e0, e' = "&"%char :: e0) as [e0 ->]. { unfold entities in He'. rewrite !elem_of_cons, elem_of_nil in He'. naive_solver. }
      injection Eb as <- _. destruct Hc. set_solver.
    + injection Eb as -> ->. f_equal. by apply IH.
Qed.
Lemma attr_fun h t : attr_reads h t -> forall t', attr_reads h t' -> t = t'.
Proof.
  assert (forall e c, (e, c) ∈ entities -> exists d e0, e = "&"%char :: d :: e0 /\ (letter_or_digit d \/ d = "#"%char)) as He0.
  { intros e c He. unfold entities in He. rewrite !elem_of_cons, elem_of_nil in He.
    destruct He as [[= -> ->]|[[= -> ->]|[[= -> ->]|[[= -> ->]|[[= -> ->]|[]]]]]]; (eexists _, _; split; [reflexivity|]); rewrite <- letterb_spec; vm_compute; tauto. }
  induction 1 as [|e c h t He H IH|h t Hh H IH|c h t Hc H IH]; intros t' H'.
  - remember ([] : gostr) as b eqn:Eb. destruct H' as [|e' c' h' k He' _| |]; [done| |discriminate Eb|discriminate Eb].
    destruct (He0 _ _ He') as (d & e0 & -> & _). discriminate Eb.
  - remember (e ++ h) as b eqn:Eb. destruct H' as [|e' c' h' k He' H'|h' k Hh' H'|c' h' k Hc' H'].
    + destruct (He0 _ _ He) as (d & e0 & -> & _). discriminate Eb.
    + unfold entities in He, He'. rewrite !elem_of_cons, elem_of_nil in He, He'.
      destruct He as [[= -> ->]|[[= -> ->]|[[= -> ->]|[[= -> ->]|[[= -> ->]|[]]]]]];
        destruct He' as [[= -> ->]|[[= -> ->]|[[= -> ->]|[[= -> ->]|[[= -> ->]|[]]]]]]; try discriminate Eb;
        apply app_inv_head in Eb; subst; f_equal; by apply IH.
    + destruct (He0 _ _ He) as (d & e0 & -> & Hd). injection Eb as ->. destruct (Hh' d eq_refl). tauto.
    + destruct (He0 _ _ He) as (d & e0 & -> & Hd). injection Eb as -> _. destruct Hc'. set_solver.
  - remember ("&"%char :: h) as b eqn:Eb. destruct H' as [|e' c' h' k He' H'|h' k Hh' H'|c' h' k Hc' H'].
    + discriminate Eb.
    + destruct (He0 _ _ He') as (d & e0 & -> & Hd). injection Eb as <-. destruct (Hh d eq_refl). tauto.
    + injection Eb as ->. f_equal. by apply IH.
    + injection Eb as -> _. destruct Hc'. set_solver.
  - remember (c :: h) as b eqn:Eb. destruct H' as [|e' c' h' k He' H'|h' k Hh' H'|c' h' k Hc' H'].
    + discriminate Eb.
    + destruct (He0 _ _ He') as (d & e0 & -> & Hd). injection Eb as <- _. destruct Hc. set_solver.
    + injection Eb as <- _. destruct Hc. set_solver.
    + injection Eb as -> ->. f_equal. by apply IH.
Qed.
