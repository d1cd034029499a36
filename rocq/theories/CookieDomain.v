(** Which domains a cookie can have; the text of a cookie as a user agent reads it. *)
From Verif Require Import Base GoStr GoStrFacts Strconv StrconvFacts Tree Header Router Ctx Util Getters UtilSpec RequestSpec RequestFacts.
From Verif Require Import NetCookie CookieSpec CookieFacts.

(** ** Host names *)
Definition ldh (a : ascii) : bool := is_alpha a || is_num a || Ascii.eqb a "-".
Lemma alpha_not a c : is_alpha c = false -> is_alpha a = true -> Ascii.eqb a c = false.
Proof. intros H1 H2. apply Ascii.eqb_neq. intros ->. congruence. Qed.
Lemma num_not a c : is_num c = false -> is_num a = true -> Ascii.eqb a c = false.
Proof. intros H1 H2. apply Ascii.eqb_neq. intros ->. congruence. Qed.
(** the loop over letters, digits and hyphens, after a byte that is no dot *)
Lemma loop_run x : forall r lst ok n, Ascii.eqb lst "." = false -> "."%char ∉ x ->
  domain_loop (x ++ r) lst ok n =
    if forallb ldh x then domain_loop r (default lst (last x)) (ok || existsb is_alpha x) (n + length x) else false.
Proof.
  induction x as [|a x IH]; intros r lst ok n Hl Hx.
  - cbn [app forallb existsb length last default]. by rewrite orb_false_r, Nat.add_0_r.
  - apply not_elem_of_cons in Hx as [Ha Hx]. cbn [app domain_loop forallb existsb length].
    assert (default lst (last (a :: x)) = default a (last x)) as -> by (destruct x; [done|]; rewrite last_cons; destruct (last (a0 :: x)) eqn:E; [done|by apply last_None in E]).
    replace (n + S (length x)) with (S n + length x) by lia.
    unfold ldh at 1. destruct (is_alpha a) eqn:E1; cbn [orb andb].
    { rewrite IH; [by rewrite orb_true_r|by apply alpha_not|done]. }
    destruct (is_num a) eqn:E2; cbn [orb andb].
    { rewrite IH; [done|by apply num_not|done]. }
    destruct (Ascii.eqb_spec a "-") as [->|Hn]; cbn [andb].
    { rewrite Hl. by rewrite IH. }
    destruct (Ascii.eqb_spec a ".") as [->|Hd]; [done|]. done.
Qed.
(** the same after a dot *)
Definition label_ok (x : gostr) : bool :=
  forallb ldh x && negb (bool_decide (head x = Some "-"%char)).
Lemma loop_label x r ok : x <> [] -> "."%char ∉ x ->
  domain_loop (x ++ r) "." ok 0 = if label_ok x then domain_loop r (default "."%char (last x)) (ok || existsb is_alpha x) (length x) else false.
Proof.
  intros Hx Hd. destruct x as [|a x]; [done|]. apply not_elem_of_cons in Hd as [Ha Hd]. unfold label_ok.
  cbn [app domain_loop forallb existsb length head].
  assert (default "."%char (last (a :: x)) = default a (last x)) as -> by (destruct x; [done|]; rewrite last_cons; destruct (last (a0 :: x)) eqn:E; [done|by apply last_None in E]).
  unfold ldh at 1. destruct (is_alpha a) eqn:E1; cbn [orb andb].
  { rewrite loop_run; [|by apply alpha_not|done]. rewrite bool_decide_eq_false_2; [|intros [= ->]; by vm_compute in E1].
    rewrite andb_true_r, orb_true_r. done. }
  destruct (is_num a) eqn:E2; cbn [orb andb].
  { rewrite loop_run; [|by apply num_not|done]. rewrite bool_decide_eq_false_2; [|intros [= ->]; by vm_compute in E2].
    rewrite andb_true_r. done. }
  destruct (Ascii.eqb_spec a "-") as [->|Hn]; cbn [andb].
  { rewrite bool_decide_eq_true_2 by done. cbn [negb]. rewrite andb_false_r. done. }
  destruct (Ascii.eqb_spec a ".") as [->|Hd']; done.
Qed.
Lemma ldh_spec a : ldh a = true <-> letter a \/ cipher a \/ a = "-"%char.
Proof. unfold ldh. rewrite !orb_true_iff, alpha_letter, num_cipher, Ascii.eqb_eq. tauto. Qed.
Lemma ldh_all x : forallb ldh x = true <-> Forall (fun a => letter a \/ cipher a \/ a = "-"%char) x.
Proof.
  rewrite forallb_forall, Forall_forall. split; intros H a Ha.
  - apply ldh_spec, H. by apply elem_of_list_In.
  - apply ldh_spec, H. by apply elem_of_list_In.
Qed.
Lemma alpha_some x : existsb is_alpha x = true <-> Exists letter x.
Proof.
  rewrite existsb_exists, Exists_exists. split; intros (a & Ha & Hb); exists a; rewrite ?elem_of_list_In, ?alpha_letter in *; done.
Qed.
Lemma label_spec x : x <> [] -> label x <-> label_ok x = true /\ last x <> Some "-"%char /\ length x <= 63.
Proof.
  intros Hx. unfold label, label_ok. rewrite andb_true_iff, negb_true_iff, bool_decide_eq_false, ldh_all. tauto.
Qed.
Lemma label_no_dot x : label x -> "."%char ∉ x.
Proof.
  intros (_ & _ & H & _) Hin. rewrite Forall_forall in H. apply H in Hin. destruct Hin as [Hin|[Hin|Hin]]; [| |done];
    revert Hin; unfold letter, cipher; vm_compute; intuition congruence.
Qed.
Lemma last_default (x : gostr) c d : x <> [] -> Ascii.eqb (default d (last x)) c = true <-> last x = Some c.
Proof.
  intros Hx. destruct (last x) as [e|] eqn:E; [|by apply last_None in E]. cbn. rewrite Ascii.eqb_eq. split; [by intros ->|by intros [= ->]].
Qed.
Lemma loop_end x ok : "."%char ∉ x -> domain_loop x "." ok 0 = true <-> (x = [] \/ label x) /\ (ok = true \/ Exists letter x).
Proof.
  intros Hd. destruct (decide (x = [])) as [->|Hx].
  { cbn. rewrite Exists_nil. tauto. }
  rewrite <- (app_nil_r x) at 1. rewrite loop_label by done. rewrite (label_spec x) by done.
  destruct (label_ok x) eqn:El; [|intuition congruence]. cbn [domain_loop].
  rewrite <- alpha_some, <- orb_true_iff.
  destruct (Ascii.eqb (default "."%char (last x)) "-") eqn:E1; cbn [orb].
  { apply (last_default x "-" "." Hx) in E1. intuition congruence. }
  assert (last x <> Some "-"%char) as Hl. { intros E. apply (last_default x "-" "." Hx) in E. congruence. }
  destruct (63 <? length x) eqn:E2.
  - apply Nat.ltb_lt in E2. split; [done|]. intros [[->|(_ & _ & ?)] _]; [done|lia].
  - apply Nat.ltb_ge in E2. intuition.
Qed.
Lemma loop_dot x r ok : "."%char ∉ x -> domain_loop (x ++ "."%char :: r) "." ok 0 = true <->
  label x /\ domain_loop r "." (ok || existsb is_alpha x) 0 = true.
Proof.
  intros Hd. destruct (decide (x = [])) as [->|Hx].
  { cbn. split; [done|]. intros [H _]. by destruct H. }
  rewrite loop_label by done. rewrite (label_spec x) by done.
  destruct (label_ok x) eqn:El; [|intuition congruence].
  assert (domain_loop ("."%char :: r) (default "."%char (last x)) (ok || existsb is_alpha x) (length x) =
    if Ascii.eqb (default "."%char (last x)) "." || Ascii.eqb (default "."%char (last x)) "-" then false
    else if (63 <? length x) || (length x =? 0) then false else domain_loop r "." (ok || existsb is_alpha x) 0) as -> by done.
  assert (Ascii.eqb (default "."%char (last x)) "." = false) as ->.
  { destruct (Ascii.eqb _ _) eqn:E; [|done]. apply (last_default x "." "." Hx) in E. apply last_Some_elem_of in E. done. }
  cbn [orb]. destruct (Ascii.eqb (default "."%char (last x)) "-") eqn:E1.
  { apply (last_default x "-" "." Hx) in E1. intuition congruence. }
  assert (last x <> Some "-"%char) as Hl. { intros E. apply (last_default x "-" "." Hx) in E. congruence. }
  assert (length x =? 0 = false) as ->. { apply Nat.eqb_neq. by destruct x. }
  rewrite orb_false_r. destruct (63 <? length x) eqn:E2.
  - apply Nat.ltb_lt in E2. split; [done|]. intros [(_ & _ & ?) _]. lia.
  - apply Nat.ltb_ge in E2. intuition.
Qed.
Definition host_from (ok : bool) (s : gostr) : Prop :=
  exists ls l, s = concat (map (fun x => x ++ L ".") ls) ++ l /\ Forall label ls /\ (l = [] \/ label l) /\ (ok = true \/ Exists letter s).
Lemma dot_cases s : "."%char ∉ s \/ exists x r, s = x ++ "."%char :: r /\ "."%char ∉ x.
Proof.
  induction s as [|a s IH]; [left; apply not_elem_of_nil|]. destruct (decide (a = "."%char)) as [->|Ha].
  - right. exists [], s. split; [done|apply not_elem_of_nil].
  - destruct IH as [H|(x & r & -> & H)]; [left; by apply not_elem_of_cons|]. right. exists (a :: x), r. split; [done|]. by apply not_elem_of_cons.
Qed.
Lemma loop_host n : forall s ok, length s <= n -> domain_loop s "." ok 0 = true <-> host_from ok s.
Proof.
  induction n as [|n IH]; intros s ok Hn; destruct (dot_cases s) as [Hd|(x & r & -> & Hd)].
  1, 3: rewrite loop_end by done; split.
  1, 3: intros [H1 H2]; exists [], s; split; [done|]; split; [constructor|done].
  1, 2: intros (ls & l & -> & H1 & H2 & H3); destruct ls as [|y ls]; [done|]; exfalso; apply Hd; cbn; rewrite !elem_of_app; left; left; right; left.
  - rewrite app_length in Hn. cbn in Hn. lia.
  - rewrite loop_dot by done. rewrite IH by (rewrite app_length in Hn; cbn in Hn; lia). split.
    + intros (H1 & ls & l & -> & H2 & H3 & H4). exists (x :: ls), l. split.
      { cbn. rewrite <- !app_assoc. done. }
      split; [by constructor|]. split; [done|]. rewrite orb_true_iff, alpha_some in H4. rewrite Exists_app, Exists_cons. tauto.
    + intros (ls & l & E & H1 & H2 & H3). destruct ls as [|y ls].
      { cbn in E. exfalso. destruct H2 as [->|H2]; [by destruct x|]. apply label_no_dot in H2. apply H2. rewrite <- E. rewrite elem_of_app. right. left. }
      apply Forall_cons in H1 as [Hy H1]. cbn in E. rewrite <- !app_assoc in E. change (L "." ++ ?z) with ("."%char :: z) in E.
      assert (x = y /\ r = concat (map (fun x => x ++ L ".") ls) ++ l) as [-> ->].
      { pose proof (cut_at_app "." x r Hd) as C1. rewrite E in C1. rewrite cut_at_app in C1 by (by apply label_no_dot).
        apply pair_equal_spec in C1 as [-> C1]. by injection C1 as ->. }
      split; [done|]. exists ls, l. split; [done|]. split; [done|]. split; [done|]. rewrite orb_true_iff, alpha_some.
      rewrite Exists_app, Exists_cons in H3. assert (~ letter ".") by (unfold letter; vm_compute; intuition congruence). tauto.
Qed.
Lemma host_name_loop s : domain_loop s "." false 0 = true <-> host_name s.
Proof. rewrite (loop_host (length s)) by done. unfold host_from, host_name. split; intros (ls & l & H); exists ls, l; intuition congruence. Qed.
Lemma without_dot_trim s : trim_prefix (L ".") s = without_dot s.
Proof.
  change (L ".") with ["."%char]. destruct (trim_prefix1_cases "." s) as [(r & -> & ->)|[H ->]]; [cbn; by rewrite decide_True|].
  destruct s as [|a s]; [done|]. cbn. rewrite decide_False; [done|]. intros ->. by apply (H s).
Qed.
Lemma domain_name_spec s : isCookieDomainName s = true <-> length s <= 255 /\ host_name (without_dot s).
Proof.
  unfold isCookieDomainName. rewrite without_dot_trim. destruct (length s =? 0) eqn:E.
  { apply Nat.eqb_eq in E. destruct s; [|done]. split; [done|]. intros [_ H]. cbn in H. destruct H as (ls & l & _ & _ & _ & H). by apply Exists_nil in H. }
  destruct (255 <? length s) eqn:E2.
  - apply Nat.ltb_lt in E2. split; [done|]. intros [? _]. lia.
  - apply Nat.ltb_ge in E2. rewrite host_name_loop. tauto.
Qed.

(** ** Dotted quads *)
Lemma number_grows s : forall n, (n <= number_value n s)%N.
Proof. induction s as [|a s IH]; intros n; cbn; [lia|]. specialize (IH (n * 10 + (N_of_ascii a - 48))%N). lia. Qed.
Definition no_digit (r : gostr) : Prop := forall a r', r = a :: r' -> ~ cipher a.
Lemma dtoi_digits s : forall n some r, Forall cipher s -> (number_value n s <= 255)%N -> no_digit r -> (s <> [] \/ some = true) ->
  dtoi_loop (s ++ r) n some = Some (number_value n s, r).
Proof.
  induction s as [|a s IH]; intros n some r H1 H2 H3 H4; cbn [app number_value].
  - destruct H4 as [?| ->]; [done|]. destruct r as [|b r]; [done|]. cbn [dtoi_loop].
    destruct (is_num b) eqn:E; [|done]. apply num_cipher in E. by destruct (H3 b r eq_refl).
  - apply Forall_cons in H1 as [Ha H1]. cbn [dtoi_loop number_value] in *. apply num_cipher in Ha as Ha'. rewrite Ha'.
    pose proof (number_grows s (n * 10 + (N_of_ascii a - 48))%N) as Hg. unfold byte_of.
    destruct (N.leb_spec 16777215 (n * 10 + (N_of_ascii a - 48))); [lia|]. apply IH; auto.
Qed.
Lemma dtoi_inv s : forall n some m r, dtoi_loop s n some = Some (m, r) ->
  exists d, s = d ++ r /\ Forall cipher d /\ m = number_value n d /\ (d <> [] \/ some = true) /\ no_digit r.
Proof.
  induction s as [|a s IH]; intros n some m r H; cbn [dtoi_loop] in H.
  - destruct some; [|done]. injection H as <- <-. exists []. split; [done|]. split; [constructor|]. split; [done|]. split; [by right|]. by intros a r'.
  - destruct (is_num a) eqn:E.
    + apply num_cipher in E. destruct (_ <=? _)%N; [done|]. apply IH in H as (d & -> & H1 & -> & H2 & H3). exists (a :: d).
      split; [done|]. split; [by constructor|]. split; [done|]. split; [by left|done].
    + destruct some; [|done]. injection H as <- <-. exists []. split; [done|]. split; [constructor|]. split; [done|]. split; [by right|].
      intros b r' [= <- <-] Hc. apply num_cipher in Hc. congruence.
Qed.
Lemma no_digit_dot r : no_digit ("."%char :: r).
Proof. intros a r' [= <- _]. unfold cipher. vm_compute. intuition congruence. Qed.
Lemma no_digit_nil : no_digit [].
Proof. by intros a r'. Qed.
(** k octets, each after a dot *)
Fixpoint octets (k : nat) (s : gostr) : Prop :=
  match k with O => s = [] | S k => exists d r, s = L "." ++ d ++ r /\ octet d /\ octets k r end.
Lemma octets_no_digit k s : octets k s -> no_digit s.
Proof. destruct k; cbn; [intros ->; apply no_digit_nil|]. intros (d & r & -> & _). apply no_digit_dot. Qed.
Lemma octet_loop k d r : octet d -> no_digit r -> 
  match dtoi_loop (d ++ r) 0 false with Some (n, s) => if (255 <? n)%N then false else ipv4_loop k false s | None => false end = ipv4_loop k false r.
Proof.
  intros (H1 & H2 & H3) Hr. rewrite dtoi_digits; [|done|done|done|by left]. destruct (N.ltb_spec 255 (number_value 0 d)); [lia|done].
Qed.
Lemma loop_octet k s : match dtoi_loop s 0 false with Some (n, s) => if (255 <? n)%N then false else ipv4_loop k false s | None => false end = true ->
  exists d r, s = d ++ r /\ octet d /\ ipv4_loop k false r = true.
Proof.
  destruct (dtoi_loop s 0 false) as [[n r]|] eqn:E; [|done]. apply dtoi_inv in E as (d & -> & H1 & -> & H2 & _).
  destruct (N.ltb_spec 255 (number_value 0 d)); [done|]. intros H'. exists d, r. split; [done|]. split; [|done].
  split; [by destruct H2|]. split; [done|lia].
Qed.
Lemma loop_octets k : forall s, ipv4_loop k false s = true <-> octets k s.
Proof.
  induction k as [|k IH]; intros s; [cbn [ipv4_loop octets]; by rewrite seqb_true|]. split.
  - cbn [ipv4_loop octets]. destruct s as [|a s]; [done|]. destruct (Ascii.eqb_spec a ".") as [->|]; [|done]. intros H.
    apply loop_octet in H as (d & r & -> & H1 & H2). exists d, r. split; [done|]. split; [done|]. by apply IH.
  - cbn [octets]. intros (d & r & -> & H1 & H2).
    change (ipv4_loop (S k) false (L "." ++ d ++ r)) with
      (match dtoi_loop (d ++ r) 0 false with Some (n, s) => if (255 <? n)%N then false else ipv4_loop k false s | None => false end).
    rewrite octet_loop; [by apply IH|done|by eapply octets_no_digit].
Qed.
Lemma quad_loop s : ipv4_loop 4 true s = true <-> dotted_quad s.
Proof.
  change (ipv4_loop 4 true s) with
    (match dtoi_loop s 0 false with Some (n, s) => if (255 <? n)%N then false else ipv4_loop 3 false s | None => false end). split.
  - intros H. apply loop_octet in H as (a & r & -> & H1 & H2). apply loop_octets in H2. cbn [octets] in H2.
    destruct H2 as (b & ? & -> & H2 & c & ? & -> & H3 & d & ? & -> & H4 & ->). exists a, b, c, d. rewrite app_nil_r. done.
  - intros (a & b & c & d & -> & H1 & H2 & H3 & H4).
    assert (octets 3 (L "." ++ b ++ L "." ++ c ++ L "." ++ d)) as Ho.
    { cbn [octets]. eexists b, _. split; [done|]. split; [done|]. eexists c, _. split; [done|]. split; [done|].
      exists d, []. rewrite app_nil_r. done. }
    rewrite octet_loop; [by apply loop_octets|done|by eapply octets_no_digit].
Qed.
Lemma quad_chars s a : dotted_quad s -> a ∈ s -> cipher a \/ a = "."%char.
Proof.
  intros (x & b & c & d & -> & (_ & H1 & _) & (_ & H2 & _) & (_ & H3 & _) & (_ & H4 & _)) Ha. rewrite Forall_forall in H1, H2, H3, H4.
  change (L ".") with ["."%char] in Ha. rewrite !elem_of_app, !elem_of_list_singleton in Ha. naive_solver.
Qed.
Lemma host_chars s a : host_name s -> a ∈ s -> letter a \/ cipher a \/ a = "-"%char \/ a = "."%char.
Proof.
  intros (ls & l & -> & H1 & H2 & _) Ha. apply elem_of_app in Ha as [Ha|Ha].
  - apply elem_of_list_In, in_concat in Ha as (x & Hx & Ha). apply in_map_iff in Hx as (y & <- & Hy).
    apply elem_of_list_In in Hy, Ha. rewrite Forall_forall in H1. apply H1 in Hy as (_ & _ & Hy & _). rewrite Forall_forall in Hy.
    apply elem_of_app in Ha as [Ha|Ha]; [apply Hy in Ha; tauto|]. apply elem_of_list_singleton in Ha. tauto.
  - destruct H2 as [->|(_ & _ & H2 & _)]; [by apply elem_of_nil in Ha|]. rewrite Forall_forall in H2. apply H2 in Ha. tauto.
Qed.
Lemma has_prefix_in c s : has_prefix [c] s = true -> c ∈ s.
Proof. intros H. apply has_prefix_spec in H as (r & ->). left. Qed.
Lemma contains_one c s : contains [c] s = true -> c ∈ s.
Proof.
  unfold contains. induction s as [|a s IH]; cbn [index_str]; [done|]. destruct (has_prefix [c] (a :: s)) eqn:E; [intros _; by apply has_prefix_in|].
  destruct (index_str [c] s); [|done]. intros _. right. by apply IH.
Qed.
Lemma domain_spec s : validCookieDomain s = true <-> good_domain s.
Proof.
  unfold validCookieDomain, good_domain. rewrite orb_true_iff, andb_true_iff, domain_name_spec, quad_loop, negb_true_iff.
  split; [tauto|]. intros [H|H]; [by left|]. right. split; [done|]. destruct (contains (L ":") s) eqn:E; [|done].
  apply contains_one in E. apply (quad_chars s _ H) in E. exfalso. revert E. unfold cipher. vm_compute. intuition congruence.
Qed.
