(** Proofs about cookies. *)
From Verif Require Import Base GoStr GoStrFacts Strconv StrconvFacts Tree Header Router Ctx Util Getters UtilSpec RequestSpec RequestFacts.
From Verif Require Import Variant GetterFacts NetCookie CookieSpec.
Local Open Scope Z_scope.

(** ** Bytes *)
Lemma valid_carried a : validCookieValueByte a = true <-> carried a.
Proof.
  unfold validCookieValueByte, carried, byte_of. rewrite !andb_true_iff, !negb_true_iff, N.leb_le, N.ltb_lt, !Ascii.eqb_neq. tauto.
Qed.
Lemma valid_path a : validCookiePathByte a = true <-> path_char a.
Proof. unfold validCookiePathByte, path_char, byte_of. rewrite !andb_true_iff, !negb_true_iff, N.leb_le, N.ltb_lt, !Ascii.eqb_neq. tauto. Qed.
Lemma alpha_letter a : is_alpha a = true <-> letter a.
Proof. unfold is_alpha, letter, byte_of. rewrite orb_true_iff, !andb_true_iff, !N.leb_le. tauto. Qed.
Lemma num_cipher a : is_num a = true <-> cipher a.
Proof. unfold is_num, cipher, byte_of. rewrite !andb_true_iff, !N.leb_le. tauto. Qed.
Lemma name_valid n : isCookieNameValid n = true <-> cookie_name n.
Proof.
  unfold isCookieNameValid, cookie_name. rewrite andb_true_iff, negb_true_iff, token_dec. rewrite seqb_false. tauto.
Qed.

(** ** What is kept *)
Lemma sanitize_filter valid v : sanitizeOrWarn valid v = List.filter valid v.
Proof.
  unfold sanitizeOrWarn. destruct (forallb valid v) eqn:E; [|done].
  induction v as [|a v IH]; [done|]. cbn in *. apply andb_prop in E as [-> E]. by rewrite <- IH.
Qed.
Lemma filter_kept valid (P : ascii -> Prop) v : (forall a, valid a = true <-> P a) -> kept P v (List.filter valid v).
Proof.
  intros H. induction v as [|a v IH]; [constructor|]. cbn. destruct (valid a) eqn:E.
  - constructor; [by apply H|done].
  - constructor; [|done]. intros HP. apply H in HP. congruence.
Qed.
Lemma kept_fun P v w w' : kept P v w -> kept P v w' -> w = w'.
Proof.
  intros H. revert w'. induction H as [|a v w Ha H IH|a v w Ha H IH]; intros w' H'; inversion H'; subst; try done; try (f_equal; auto); auto.
Qed.
Lemma kept_all (P : ascii -> Prop) v : Forall P v -> kept P v v.
Proof. induction 1; constructor; auto. Qed.
Lemma kept_P (P : ascii -> Prop) v w : kept P v w -> Forall P w.
Proof. induction 1; auto. Qed.

(** ** Cutting *)
Lemma cut_at_none c s : c ∉ s -> cut_at c s = (s, None).
Proof.
  induction s as [|a s IH]; [done|]. rewrite not_elem_of_cons. intros [H1 H2]. cbn.
  rewrite decide_False by done. by rewrite IH.
Qed.
Lemma cut_at_app c x y : c ∉ x -> cut_at c (x ++ c :: y) = (x, Some y).
Proof.
  induction x as [|a x IH]; [intros _; cbn; by rewrite decide_True|]. rewrite not_elem_of_cons. intros [H1 H2]. cbn.
  rewrite decide_False by done. by rewrite IH.
Qed.
Lemma pieces_none c s : c ∉ s -> pieces c s = [s].
Proof.
  induction s as [|a s IH]; [done|]. rewrite not_elem_of_cons. intros [H1 H2]. cbn.
  rewrite decide_False by done. by rewrite IH.
Qed.
Lemma pieces_app c x y : c ∉ x -> pieces c (x ++ c :: y) = x :: pieces c y.
Proof.
  induction x as [|a x IH]; [intros _; cbn; by rewrite decide_True|]. rewrite not_elem_of_cons. intros [H1 H2]. cbn.
  rewrite decide_False by done. by rewrite IH.
Qed.
Lemma pieces_rest c ls : Forall (fun x => c ∉ x) ls -> forall x, c ∉ x -> pieces c (x ++ concat (map (cons c) ls)) = x :: ls.
Proof.
  induction 1 as [|y ls Hy Hl IH]; intros x Hx; cbn; [rewrite app_nil_r; by apply pieces_none|].
  rewrite pieces_app by done. by rewrite IH.
Qed.

(** ** Stripping *)
Lemma lstrip_id s : (forall a, head s = Some a -> blank a = false) -> lstrip s = s.
Proof. destruct s as [|a s]; [done|]. cbn. intros H. by rewrite (H a). Qed.
Lemma strip_id s : (forall a, head s = Some a -> blank a = false) -> (forall a, last s = Some a -> blank a = false) -> strip s = s.
Proof.
  intros H1 H2. unfold strip. rewrite (lstrip_id s) by done. rewrite lstrip_id; [by rewrite rev_involutive|].
  intros a Ha. apply H2. rewrite <- Ha. rewrite <- (rev_involutive s) at 1. destruct (rev s); [done|]. cbn. by rewrite last_snoc.
Qed.
Lemma strip_solid s : Forall (fun a => blank a = false) s -> strip s = s.
Proof.
  intros H. rewrite Forall_forall in H. apply strip_id; intros a Ha; apply H.
  - destruct s; [done|]. injection Ha as ->. left.
  - by apply last_Some_elem_of.
Qed.
Lemma strip_space s : strip (" "%char :: s) = strip s.
Proof. done. Qed.
Lemma strip_head s a : strip s = s -> head s = Some a -> blank a = false.
Proof.
  intros H Ha. destruct s as [|b s]; [done|]. injection Ha as ->. destruct (blank a) eqn:E; [|done]. exfalso.
  assert (forall t, (length (lstrip t) <= length t)%nat) as Hl.
  { intros t. induction t as [|x t IH]; [done|]. cbn. destruct (blank x); cbn; lia. }
  apply (f_equal length) in H. unfold strip in H. cbn [lstrip] in H. rewrite E, rev_length in H.
  pose proof (Hl (rev (lstrip s))) as H1. rewrite rev_length in H1. pose proof (Hl s). cbn in H. lia.
Qed.
Lemma token_solid n : is_token n -> Forall (fun a => blank a = false) n.
Proof.
  intros H. eapply Forall_impl; [exact H|]. clear H. intros a Ha. cbn beta in Ha. unfold blank. rewrite bool_decide_eq_false.
  intros [->| ->]; apply token_char in Ha; vm_compute in Ha; discriminate.
Qed.
Lemma token_no n c : is_token n -> token_byte c = false -> c ∉ n.
Proof. intros H Hc Hin. unfold is_token in H. rewrite Forall_forall in H. apply H in Hin. apply token_char in Hin. congruence. Qed.
Lemma token_print n : is_token n -> Forall (fun a => (32 <= N_of_ascii a < 127)%N) n.
Proof.
  intros H. eapply Forall_impl; [exact H|]. clear H. intros a Ha. cbn beta in Ha. apply token_char in Ha.
  assert (validCookiePathByte a = true) as H; [|apply valid_path in H as [H _]; exact H].
  revert Ha. destruct a as [[] [] [] [] [] [] [] []]; vm_compute; done.
Qed.

(** ** The value that is sent *)
(** w: the bytes of the value that are carried; t: how they are written *)
Definition written (w : gostr) : gostr := if decide (" "%char ∈ w \/ ","%char ∈ w) then L """" ++ w ++ L """" else w.
Lemma sanitize_value v w : kept carried v w -> sanitizeCookieValue v = written w.
Proof.
  intros H. unfold sanitizeCookieValue, written. rewrite sanitize_filter.
  rewrite (kept_fun _ _ _ _ (filter_kept _ _ v valid_carried) H).
  destruct (length w =? 0)%nat eqn:E.
  { apply Nat.eqb_eq in E. destruct w; [|done]. rewrite decide_False; [done|]. intros [Hx|Hx]; by apply elem_of_nil in Hx. }
  destruct (contains_byte " " w || contains_byte "," w) eqn:Ec.
  - rewrite decide_True; [done|]. apply orb_true_iff in Ec. by rewrite !contains_byte_true in Ec.
  - rewrite decide_False; [done|]. apply orb_false_iff in Ec. rewrite !contains_byte_false in Ec. tauto.
Qed.
Lemma carried_no w c : Forall carried w -> ~ carried c -> c ∉ w.
Proof. intros H Hc Hin. rewrite Forall_forall in H. by apply H in Hin. Qed.
Lemma written_semi w : Forall carried w -> ";"%char ∉ written w.
Proof.
  intros H. assert (";"%char ∉ w) as Hn. { apply carried_no; [done|]. intros (_ & _ & Hc & _). done. }
  unfold written. destruct (decide _); [|done]. change (L """") with [""""%char]. rewrite !not_elem_of_app, !not_elem_of_cons.
  repeat split; try done; apply not_elem_of_nil.
Qed.
Lemma written_strip w : Forall carried w -> strip (written w) = written w.
Proof.
  intros H. unfold written. destruct (decide _) as [Hd|Hd].
  - apply strip_id; intros a.
    + cbn. by injection 1 as <-.
    + change (L """" ++ w ++ L """") with ((""""%char :: w) ++ [""""%char]). rewrite last_snoc. by injection 1 as <-.
  - apply strip_solid. rewrite Forall_forall in *. intros a Ha. unfold blank. rewrite bool_decide_eq_false. intros [->| ->].
    + tauto.
    + apply H in Ha as [Ha _]. vm_compute in Ha. destruct Ha as [Ha _]. by apply Ha.
Qed.
Lemma parse_written w : Forall carried w -> parseCookieValue (written w) = Some w.
Proof.
  intros H. assert (forallb validCookieValueByte w = true) as Hv.
  { apply forallb_forall. intros a Ha. apply elem_of_list_In in Ha. rewrite Forall_forall in H. apply valid_carried. by apply H. }
  unfold written, parseCookieValue. destruct (decide _).
  - assert ((1 <? length (L """" ++ w ++ L """"))%nat = true) as ->.
    { apply Nat.ltb_lt. rewrite !app_length. change (length (L """")) with 1%nat. lia. }
    assert (has_prefix (L """") (L """" ++ w ++ L """") = true) as -> by apply has_prefix_app.
    assert (has_suffix (L """") (L """" ++ w ++ L """") = true) as ->.
    { apply has_suffix_spec. exists (L """" ++ w). by rewrite <- app_assoc. }
    cbn [andb]. change (L """" ++ w ++ L """") with (""""%char :: w ++ [""""%char]).
    cbn [drop length]. rewrite app_length. cbn [length]. replace (S (length w + 1) - 2)%nat with (length w) by lia.
    rewrite drop_0. rewrite take_app. by rewrite Hv.
  - assert (has_prefix (L """") w = false) as ->.
    { destruct w as [|a w]; [done|]. change (L """") with [""""%char]. cbn [has_prefix].
      destruct (Ascii.eqb_spec """" a) as [<-|]; [|done]. apply Forall_inv in H as (_ & H & _). done. }
    rewrite andb_false_r. cbn [andb]. by rewrite Hv.
Qed.

(** ** Trimming *)
Lemma solid_space1 a : (32 <= N_of_ascii a < 127)%N -> blank a = false -> is_space1 a = false.
Proof.
  intros H1 H2. unfold is_space1, byte_of. apply bool_decide_eq_false in H2.
  destruct (_ || _)%N eqn:E; [|done]. apply orb_true_iff in E as [E|E].
  - apply andb_prop in E as [_ E]. apply N.leb_le in E. lia.
  - apply N.eqb_eq in E. exfalso. apply H2. left. rewrite <- (ascii_N_embedding a), E. done.
Qed.
Lemma low_space2 a b : (N_of_ascii a < 127)%N -> is_space2 a b = false.
Proof. intros H. unfold is_space2, byte_of. destruct (N.eqb_spec (N_of_ascii a) 194); [lia|done]. Qed.
Lemma low_space3 a b c : (N_of_ascii a < 127)%N -> is_space3 a b c = false.
Proof.
  intros H. unfold is_space3, byte_of. destruct (N.eqb_spec (N_of_ascii a) 225), (N.eqb_spec (N_of_ascii a) 226), (N.eqb_spec (N_of_ascii a) 227); first [lia | done].
Qed.
Lemma low_space2' a b : (N_of_ascii b < 127)%N -> is_space2 a b = false.
Proof.
  intros H. unfold is_space2, byte_of. destruct (N.eqb_spec (N_of_ascii b) 133), (N.eqb_spec (N_of_ascii b) 160); first [lia | cbn; by rewrite andb_false_r].
Qed.
Lemma low_space3m a b c : (N_of_ascii b < 127)%N -> is_space3 a b c = false.
Proof.
  intros H. unfold is_space3, byte_of. destruct (N.eqb_spec (N_of_ascii b) 154), (N.eqb_spec (N_of_ascii b) 128), (N.eqb_spec (N_of_ascii b) 129); first [lia | by rewrite !andb_false_r].
Qed.
Lemma low_space3r a b c : (N_of_ascii c < 127)%N -> is_space3 a b c = false.
Proof.
  intros H. unfold is_space3, byte_of.
  destruct (N.eqb_spec (N_of_ascii c) 168), (N.eqb_spec (N_of_ascii c) 169), (N.eqb_spec (N_of_ascii c) 175), (N.eqb_spec (N_of_ascii c) 159),
    (N.eqb_spec (N_of_ascii c) 128), (N.leb_spec 128 (N_of_ascii c)); first [lia | by rewrite !andb_false_r].
Qed.
Lemma trim_left_solid a s : (32 <= N_of_ascii a < 127)%N -> blank a = false -> trim_left_space (a :: s) = a :: s.
Proof.
  intros H1 H2. cbn [trim_left_space]. rewrite solid_space1 by done. destruct s as [|b s]; [done|].
  rewrite low_space2 by lia. destruct s as [|c s]; [done|]. rewrite low_space3 by lia. done.
Qed.
Lemma trim_left_rev_stop a y : (32 <= N_of_ascii a < 127)%N -> blank a = false -> forall x,
  trim_left_space_rev (x ++ a :: y) = trim_left_space_rev x ++ a :: y.
Proof.
  intros H1 H2. intros x. induction x as [x IH] using (induction_ltof1 _ length). unfold ltof in IH.
  destruct x as [|p x].
  - cbn [app trim_left_space_rev]. rewrite solid_space1 by done. destruct y as [|b y]; [done|].
    rewrite low_space2' by lia. destruct y as [|c y]; [done|]. rewrite low_space3r by lia. done.
  - cbn [app trim_left_space_rev]. destruct (is_space1 p); [apply IH; cbn; lia|].
    destruct x as [|q x]; cbn [app].
    + rewrite low_space2 by lia. destruct y as [|c y]; [done|]. rewrite low_space3m by lia. done.
    + destruct (is_space2 q p); [apply IH; cbn; lia|]. destruct x as [|r x]; cbn [app].
      * rewrite low_space3 by lia. done.
      * destruct (is_space3 r q p); [apply IH; cbn; lia|done].
Qed.
Lemma trim_right_stop a x y : (32 <= N_of_ascii a < 127)%N -> blank a = false ->
  trim_right_space (x ++ a :: y) = x ++ a :: trim_right_space y.
Proof.
  intros H1 H2. unfold trim_right_space. rewrite rev_app_distr. cbn [rev]. rewrite <- app_assoc. cbn [app].
  rewrite trim_left_rev_stop by done. rewrite rev_app_distr. cbn [rev]. rewrite rev_involutive, <- app_assoc. done.
Qed.
Lemma trim_right_solid s : (forall a, last s = Some a -> (32 <= N_of_ascii a < 127)%N /\ blank a = false) -> trim_right_space s = s.
Proof.
  destruct s as [|a s _] using rev_ind; [done|]. rewrite last_snoc. intros H. destruct (H a) as [H1 H2]; [done|].
  rewrite trim_right_stop by done. done.
Qed.

(** ** Reading a Cookie line *)
Definition loose (c : gostr * gostr) : Prop :=
  c.1 <> [] /\ strip c.1 = c.1 /\ "="%char ∉ c.1 /\ ";"%char ∉ c.1 /\ ";"%char ∉ c.2 /\ Forall (fun a => (32 <= N_of_ascii a < 127)%N) c.1.
Lemma storable_loose c : storable c -> loose c.
Proof. unfold storable, loose. tauto. Qed.
Lemma loose_head c : loose c -> exists a n, c.1 = a :: n /\ (32 <= N_of_ascii a < 127)%N /\ blank a = false.
Proof.
  intros (H1 & H2 & _ & _ & _ & H3). destruct c as [[|a n] v]; cbn [fst] in *; [done|]. exists a, n. split; [done|].
  split; [by apply Forall_inv in H3|]. by apply (strip_head _ a H2).
Qed.
Lemma eq_solid : (32 <= N_of_ascii "=" < 127)%N /\ blank "=" = false.
Proof. split; [vm_compute; split; [discriminate|reflexivity]|reflexivity]. Qed.
Definition rtrim (c : gostr * gostr) : gostr * gostr := (c.1, trim_right_space c.2).
Lemma rtrim_loose c : loose c -> loose (rtrim c).
Proof.
  intros (H1 & H2 & H3 & H4 & H5 & H6). unfold rtrim, loose. cbn [fst snd]. repeat split; try done.
  intros Hin. destruct (trs_prefix c.2) as [x Hx]. apply H5. rewrite Hx. apply elem_of_app. by left.
Qed.
Lemma trim_pair c : loose c -> trim_space (pair_text c) = pair_text (rtrim c).
Proof.
  intros Hc. destruct (loose_head c Hc) as (a & n & Hn & Ha & Hb). unfold trim_space, pair_text, rtrim. rewrite Hn. cbn [fst snd].
  rewrite <- app_comm_cons, trim_left_solid by done. change (L "=" ++ ?x) with ("="%char :: x). rewrite app_comm_cons.
  rewrite trim_right_stop by apply eq_solid. by rewrite <- app_comm_cons.
Qed.
Lemma trim_space_blank s : trim_space (" "%char :: s) = trim_space s.
Proof. done. Qed.
Lemma cookie_line_cons c cs : cs <> [] -> cookie_line (c :: cs) = pair_text c ++ L "; " ++ cookie_line cs.
Proof. by destruct cs. Qed.
(** trimming a line trims its last value *)
Lemma trim_right_line cs c : loose c -> trim_right_space (cookie_line (cs ++ [c])) = cookie_line (cs ++ [rtrim c]).
Proof.
  intros Hc. induction cs as [|d cs IH].
  - cbn [app cookie_line]. unfold pair_text. change (L "=" ++ ?x) with ("="%char :: x). by rewrite trim_right_stop by apply eq_solid.
  - rewrite <- !app_comm_cons, !cookie_line_cons by (by destruct cs). unfold pair_text.
    change (L "; " ++ ?x) with (";"%char :: " "%char :: x).
    (* the text of the last pair contains a sign at which trimming stops *)
    assert (exists u v, cookie_line (cs ++ [c]) = u ++ "="%char :: v /\ cookie_line (cs ++ [rtrim c]) = u ++ "="%char :: trim_right_space v) as (u & v & E1 & E2).
    { clear. destruct c as [n v]. induction cs as [|e cs IH].
      - exists n, v. split; reflexivity.
      - destruct IH as (u & w & E1 & E2). rewrite <- !app_comm_cons, !cookie_line_cons by (by destruct cs).
        rewrite E1, E2. exists (pair_text e ++ L "; " ++ u), w. by rewrite <- !app_assoc. }
    rewrite E1, E2, (app_comm_cons u _ " "%char), (app_comm_cons (" "%char :: u) _ ";"%char), app_assoc.
    rewrite trim_right_stop by apply eq_solid. by rewrite <- app_assoc.
Qed.
Lemma trim_line cs c : Forall loose (cs ++ [c]) -> trim_space (cookie_line (cs ++ [c])) = cookie_line (cs ++ [rtrim c]).
Proof.
  intros H. assert (loose c) as Hc. { rewrite Forall_app in H. destruct H as [_ H]. by apply Forall_inv in H. }
  rewrite <- trim_right_line by done. unfold trim_space. f_equal.
  destruct cs as [|d cs].
  - destruct (loose_head c Hc) as (a & n & Hn & Ha & Hb). cbn [app cookie_line]. unfold pair_text. rewrite Hn.
    rewrite <- app_comm_cons. by apply trim_left_solid.
  - rewrite <- app_comm_cons in H |- *. apply Forall_inv in H. destruct (loose_head d H) as (a & n & Hn & Ha & Hb).
    rewrite cookie_line_cons by (by destruct cs). unfold pair_text. rewrite Hn.
    rewrite <- !app_comm_cons. by apply trim_left_solid.
Qed.
(** its parts *)
Lemma line_parts_enough fuel : forall line, (length line <= fuel)%nat -> is_Some (line_parts fuel line).
Proof.
  induction fuel as [|fuel IH]; intros line Hl.
  - destruct line; [by eexists|cbn in Hl; lia].
  - cbn [line_parts]. destruct (length line =? 0)%nat; [by eexists|]. destruct (index_byte ";" line) as [[|i]|]; try by eexists.
    destruct (IH (drop (S (S i)) line)) as [x ->]; [rewrite drop_length; lia|]. by eexists.
Qed.
Lemma parts_one fuel x : x <> [] -> ";"%char ∉ x -> (length x <= fuel)%nat -> line_parts fuel x = Some [x].
Proof.
  intros H1 H2 H3. destruct fuel as [|fuel]; [destruct x; [done|cbn in H3; lia]|]. cbn [line_parts].
  destruct x as [|a x]; [done|]. cbn [length Nat.eqb]. by rewrite (proj2 (index_byte_None _ _)).
Qed.
Lemma parts_more fuel x y : x <> [] -> ";"%char ∉ x -> (length (x ++ ";"%char :: y) <= S fuel)%nat ->
  line_parts (S fuel) (x ++ ";"%char :: y) = cons x <$> line_parts fuel y.
Proof.
  intros H1 H2 H3. cbn [line_parts]. rewrite app_length. destruct x as [|a x]; [done|]. cbn [length Nat.add Nat.eqb].
  rewrite index_byte_app by done. cbn [length].
  change (S (length x)) with (length (a :: x)). rewrite take_app.
  replace (S (length (a :: x))) with (length ((a :: x) ++ [";"%char])) by (rewrite app_length; cbn; lia).
  replace ((a :: x) ++ ";"%char :: y) with (((a :: x) ++ [";"%char]) ++ y) by (by rewrite <- app_assoc).
  by rewrite drop_app.
Qed.
Lemma pair_no_semi c : loose c -> ";"%char ∉ pair_text c.
Proof.
  intros (_ & _ & _ & H1 & H2 & _). unfold pair_text. change (L "=") with ["="%char]. rewrite !not_elem_of_app, not_elem_of_cons.
  repeat split; try done. apply not_elem_of_nil.
Qed.
Lemma pair_nonempty c : pair_text c <> [].
Proof. unfold pair_text. destruct c as [[|a n] v]; done. Qed.
Lemma parts_line cs : forall c pre fuel, Forall loose (c :: cs) -> pre = [] \/ pre = [" "%char] ->
  (length (pre ++ cookie_line (c :: cs)) <= fuel)%nat ->
  line_parts fuel (pre ++ cookie_line (c :: cs)) = Some ((pre ++ pair_text c) :: map (fun d => " "%char :: pair_text d) cs).
Proof.
  induction cs as [|d cs IH]; intros c pre fuel H Hp Hl.
  - cbn [cookie_line map] in *. apply Forall_inv in H. apply parts_one; [|destruct Hp as [->| ->]; cbn [app]|done].
    + intros E. apply app_eq_nil in E as [_ E]. by apply pair_nonempty in E.
    + by apply pair_no_semi.
    + rewrite not_elem_of_cons. split; [done|by apply pair_no_semi].
  - rewrite cookie_line_cons in Hl |- * by done. change (L "; " ++ ?x) with (";"%char :: " "%char :: x) in Hl |- *.
    rewrite app_assoc in Hl |- *. pose proof H as H'. apply Forall_inv in H. apply Forall_inv_tail in H'.
    destruct fuel as [|fuel]; [rewrite app_length in Hl; cbn [length] in Hl; lia|].
    rewrite parts_more; [|intros E; apply app_eq_nil in E as [_ E]; by apply pair_nonempty in E| |done].
    + specialize (IH d [" "%char] fuel H'). cbn [app] in IH. rewrite IH; [done|by right|].
      rewrite app_length in Hl. cbn [length] in Hl |- *. lia.
    + destruct Hp as [->| ->]; cbn [app]; [by apply pair_no_semi|]. rewrite not_elem_of_cons. split; [done|by apply pair_no_semi].
Qed.
(** reading one of them *)
Definition read_pair (filter : gostr) (c : gostr * gostr) : option (gostr * gostr) :=
  if negb (isCookieNameValid c.1) then None
  else if negb (seqb filter []) && negb (seqb filter c.1) then None
  else match parseCookieValue (trim_right_space c.2) with Some v => Some (c.1, v) | None => None end.
Lemma read_part_pair filter pre c : loose c -> pre = [] \/ pre = [" "%char] -> read_part filter (pre ++ pair_text c) = read_pair filter c.
Proof.
  intros Hc Hp. unfold read_part. assert (trim_space (pre ++ pair_text c) = pair_text (rtrim c)) as ->.
  { destruct Hp as [->| ->]; cbn [app]; rewrite ?trim_space_blank; by apply trim_pair. }
  destruct (length (pair_text (rtrim c)) =? 0)%nat eqn:E.
  { apply Nat.eqb_eq, nil_length_inv in E. by apply pair_nonempty in E. }
  unfold pair_text, rtrim. cbn [fst snd]. change (L "=" ++ ?x) with ("="%char :: x).
  destruct Hc as (_ & _ & Hc & _). rewrite index_byte_app by done. rewrite take_app.
  replace (S (length c.1)) with (length (c.1 ++ ["="%char])) by (rewrite app_length; cbn; lia).
  replace (c.1 ++ "="%char :: trim_right_space c.2) with ((c.1 ++ ["="%char]) ++ trim_right_space c.2) by (by rewrite <- app_assoc).
  rewrite drop_app. done.
Qed.
Lemma rtrim_idem c : rtrim (rtrim c) = rtrim c.
Proof. unfold rtrim. cbn [fst snd]. by rewrite trs_idem. Qed.
Lemma read_pair_rtrim filter c : read_pair filter (rtrim c) = read_pair filter c.
Proof. unfold read_pair, rtrim. cbn [fst snd]. by rewrite trs_idem. Qed.
Lemma read_line_pairs filter cs : Forall loose cs -> read_line filter (cookie_line cs) = Some (omap (read_pair filter) cs).
Proof.
  unfold read_line. destruct cs as [|c cs _] using rev_ind; [done|]. intros H. rewrite trim_line by done.
  assert (Forall loose (cs ++ [rtrim c])) as H'.
  { rewrite Forall_app in H |- *. destruct H as [H1 H2]. split; [done|]. apply Forall_inv in H2. constructor; [by apply rtrim_loose|done]. }
  assert (omap (read_pair filter) (cs ++ [c]) = omap (read_pair filter) (cs ++ [rtrim c])) as ->.
  { rewrite !omap_app. f_equal. cbn. by rewrite read_pair_rtrim. }
  destruct (cs ++ [rtrim c]) as [|d ds] eqn:E; [by destruct cs|].
  pose proof (parts_line ds d [] _ H' (or_introl eq_refl) (Nat.le_refl _)) as Hp. cbn [app] in Hp. rewrite Hp.
  f_equal. clear Hp E H.
  assert (forall l, Forall loose l -> omap (read_part filter) (map (fun d => " "%char :: pair_text d) l) = omap (read_pair filter) l) as Ho.
  { induction 1 as [|e l He Hl IH]; [done|]. cbn. pose proof (read_part_pair filter [" "%char] e He (or_intror eq_refl)) as E0.
    cbn [app] in E0. rewrite E0. destruct (read_pair filter e); [f_equal|]; exact IH. }
  cbn. pose proof (read_part_pair filter [] d (Forall_inv H') (or_introl eq_refl)) as E0. cbn [app] in E0. rewrite E0.
  specialize (Ho ds (Forall_inv_tail H')). destruct (read_pair filter d); [f_equal|]; exact Ho.
Qed.
Lemma read_line_total filter line : is_Some (read_line filter line).
Proof. unfold read_line. destruct (line_parts_enough _ (trim_space line) (Nat.le_refl _)) as [x ->]. by eexists. Qed.
Lemma read_lines_total filter lines : is_Some (read_lines filter lines).
Proof.
  induction lines as [|l lines [y Hy]]; [by eexists|]. cbn. destruct (read_line_total filter l) as [x ->]. rewrite Hy. by eexists.
Qed.
Lemma read_pair_other (name : gostr) (c : gostr * gostr) : name <> [] -> c.1 <> name -> read_pair name c = None.
Proof.
  intros H1 H2. unfold read_pair. apply seqb_false in H1. rewrite H1. assert (seqb name c.1 = false) as ->; [apply seqb_false; intros E; by apply H2|].
  by destruct (isCookieNameValid c.1).
Qed.
Lemma read_others name cs : name <> [] -> Forall (fun c => loose c /\ c.1 <> name) cs -> read_line name (cookie_line cs) = Some [].
Proof.
  intros Hn H. rewrite read_line_pairs.
  - f_equal. induction H as [|c cs [_ Hc] H IH]; [done|]. cbn. by rewrite read_pair_other.
  - eapply Forall_impl; [exact H|]. cbn. tauto.
Qed.
Lemma read_lines_others name ls rest : name <> [] -> Forall (Forall (fun c => loose c /\ c.1 <> name)) ls ->
  read_lines name (map cookie_line ls ++ rest) = read_lines name rest.
Proof.
  intros Hn. induction 1 as [|cs ls Hc H IH]; [done|]. cbn [map app read_lines]. rewrite read_others by done. rewrite IH.
  destruct (read_lines name rest); done.
Qed.
Lemma others_loose name (cs : list (gostr * gostr)) : Forall (fun c => storable c /\ c.1 <> name) cs -> Forall (fun c => loose c /\ c.1 <> name) cs.
Proof. intros H. eapply Forall_impl; [exact H|]. cbn. intros c [Hc ?]. split; [by apply storable_loose|done]. Qed.

(** ** Request.Cookie *)
Lemma written_print w a : Forall carried w -> a ∈ written w -> (32 <= N_of_ascii a < 127)%N.
Proof.
  intros H Ha. unfold written in Ha. rewrite Forall_forall in H. destruct (decide _); [|by apply H in Ha as [Ha _]].
  change (L """") with [""""%char] in Ha. rewrite !elem_of_app, !elem_of_list_singleton in Ha.
  destruct Ha as [->|[Ha| ->]]; [vm_compute; split; [discriminate|reflexivity]|by apply H in Ha as [Ha _]|vm_compute; split; [discriminate|reflexivity]].
Qed.
Lemma strip_last s a : strip s = s -> last s = Some a -> blank a = false.
Proof.
  intros H Ha. destruct s as [|b s _] using rev_ind; [done|]. rewrite last_snoc in Ha. injection Ha as ->. destruct (blank a) eqn:E; [|done]. exfalso.
  assert (forall t, (length (lstrip t) <= length t)%nat) as Hl.
  { intros t. induction t as [|x t IH]; [done|]. cbn. destruct (blank x); cbn; lia. }
  assert (forall t, lstrip (t ++ [a]) = [] \/ exists t', lstrip (t ++ [a]) = t' ++ [a] /\ (length t' <= length t)%nat) as Hs.
  { intros t. induction t as [|x t IH]; cbn; [rewrite E; by left|]. destruct (blank x).
    - destruct IH as [->|(t' & -> & Ht)]; [by left|right; exists t'; split; [done|lia]].
    - right. exists (x :: t). split; [done|cbn; lia]. }
  unfold strip in H. destruct (Hs s) as [E1|(t' & E1 & Ht)]; rewrite E1 in H.
  - cbn in H. by destruct s.
  - rewrite rev_app_distr in H. cbn [rev app lstrip] in H. rewrite E in H. apply (f_equal length) in H. rewrite rev_length, app_length in H.
    pose proof (Hl (rev t')) as H1. rewrite rev_length in H1. cbn in H. lia.
Qed.
Lemma written_storable name w : cookie_name name -> Forall carried w -> storable (name, written w).
Proof.
  intros [H1 H2] Hw. unfold storable. cbn [fst snd]. split; [done|]. split; [by apply strip_solid, token_solid|].
  split; [by apply written_strip|]. split; [by apply token_no|]. split; [by apply token_no|]. split; [by apply written_semi|]. by apply token_print.
Qed.
Lemma read_own name w : cookie_name name -> Forall carried w -> read_pair name (name, written w) = Some (name, w).
Proof.
  intros Hn Hw. unfold read_pair. cbn [fst snd]. rewrite (proj2 (name_valid name) Hn). cbn [negb].
  assert (seqb name name = true) as -> by (by apply seqb_true). rewrite andb_false_r.
  rewrite trim_right_solid; [by rewrite parse_written|]. intros a Ha. split.
  - eapply written_print; [exact Hw|]. by apply last_Some_elem_of.
  - eapply strip_last; [|exact Ha]. by apply written_strip.
Qed.
Lemma cookie_sent_back r name w lines before after rest :
  cookie_name name -> Forall carried w ->
  Forall (Forall (fun c => storable c /\ c.1 <> name)) lines -> Forall (fun c => storable c /\ c.1 <> name) before -> Forall storable after ->
  rq_header r !! L "Cookie" = Some (map cookie_line lines ++ cookie_line (before ++ (name, written w) :: after) :: rest) ->
  Cookie request_cookie r name = w.
Proof.
  intros Hn Hw Hl Hb Ha Hr. assert (name <> []) as Hne by apply Hn.
  unfold Cookie, request_cookie, readCookies. rewrite Hr. rewrite read_lines_others; [|done|].
  2: { eapply Forall_impl; [exact Hl|]. cbn beta. intros cs. apply others_loose. }
  cbn [read_lines]. rewrite read_line_pairs.
  - rewrite omap_app. assert (omap (read_pair name) before = []) as ->.
    { clear Hr. induction Hb as [|c cs [_ Hc] H IH]; [done|]. cbn. by rewrite read_pair_other. }
    cbn. rewrite read_own by done. destruct (read_lines_total name rest) as [x ->]. done.
  - rewrite Forall_app, Forall_cons. split; [|split].
    + apply others_loose in Hb. eapply Forall_impl; [exact Hb|]. cbn. tauto.
    + by apply storable_loose, written_storable.
    + eapply Forall_impl; [exact Ha|]. apply storable_loose.
Qed.
Lemma cookie_absent r name lines :
  name <> [] -> Forall (Forall (fun c => storable c /\ c.1 <> name)) lines ->
  (rq_header r !! L "Cookie" = None /\ lines = []) \/ rq_header r !! L "Cookie" = Some (map cookie_line lines) ->
  request_cookie r name = None.
Proof.
  intros Hn Hl Hr. unfold request_cookie, readCookies.
  assert (match rq_header r !! L "Cookie" with Some l => l | None => [] end = map cookie_line lines ++ []) as ->.
  { rewrite app_nil_r. destruct Hr as [[-> ->]| ->]; done. }
  rewrite read_lines_others; [done..|]. eapply Forall_impl; [exact Hl|]. cbn beta. intros cs. apply others_loose.
Qed.
