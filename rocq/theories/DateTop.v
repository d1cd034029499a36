(** Files asked for again with the date of the last time. *)
From Verif Require Import Base GoStr Strconv Pattern Tree TreeSpec Header Router RouterSpec PathClean Ctx Util UtilSpec Content
  UtilFacts TraceSpec Engine EngineSpec ServeThms StaticReg Static StaticSpec StaticFacts StaticTop NetServe CondSpec NetServeFacts
  NetRange RangeSpec NetRangeFacts CondTop NetDate DateSpec DateFacts.
Local Open Scope Z_scope.

(** ** No date has a quotation mark *)
Definition took (s r : gostr) : Prop := exists p, s = p ++ r /\ """"%char ∉ p.
Lemma took_refl s : took s s.
Proof. exists []. split; [done|]. apply not_elem_of_nil. Qed.
Lemma took_trans s r u : took s r -> took r u -> took s u.
Proof. intros (p & -> & Hp) (q & -> & Hq). exists (p ++ q). rewrite app_assoc. split; [done|]. rewrite elem_of_app. tauto. Qed.
Lemma took_cons a s r : a <> """"%char -> took s r -> took (a :: s) r.
Proof. intros Ha (p & -> & Hp). exists (a :: p). split; [done|]. rewrite elem_of_cons. intros [H|H]; [by subst|done]. Qed.
Lemma took_all s : took s [] -> """"%char ∉ s.
Proof. intros (p & -> & Hp). by rewrite app_nil_r. Qed.
Lemma digit_took a x : digit_val a = Some x -> a <> """"%char.
Proof. intros H ->. vm_compute in H. discriminate. Qed.
Lemma getnum_took s b x r : getnum s b = Some (x, r) -> took s r.
Proof.
  destruct s as [|a s]; [done|]. cbn [getnum]. destruct (digit_val a) eqn:Ea; [|done]. apply digit_took in Ea.
  destruct s as [|c s].
  - destruct b; [done|]. intros [= _ <-]. apply took_cons; [done|apply took_refl].
  - destruct (digit_val c) eqn:Ec; [|destruct b; [done|]].
    + apply digit_took in Ec. intros [= _ <-]. apply took_cons; [done|]. apply took_cons; [done|apply took_refl].
    + intros [= _ <-]. apply took_cons; [done|apply took_refl].
Qed.
Lemma getyear_took s x r : getyear s = Some (x, r) -> took s r.
Proof.
  destruct s as [|a [|b [|c [|d s]]]]; try done. cbn [getyear].
  destruct (digit_val a) eqn:Ea; [|done]. destruct (digit_val b) eqn:Eb; [|done]. destruct (digit_val c) eqn:Ec; [|done].
  destruct (digit_val d) eqn:Ed; [|done]. intros [= _ <-]. apply digit_took in Ea, Eb, Ec, Ed.
  repeat (apply took_cons; [done|]). apply took_refl.
Qed.
Lemma cutspace_took s : took s (cutspace s).
Proof.
  induction s as [|a s IH]; [apply took_refl|]. cbn [cutspace]. destruct (Ascii.eqb a " ") eqn:E; [|apply took_refl].
  apply Ascii.eqb_eq in E as ->. apply took_cons; done.
Qed.
Lemma skip_took p s r : """"%char ∉ p -> skip p s = Some r -> took s r.
Proof.
  revert s. induction p as [|a p IH]; intros s Hp; cbn [skip]; [intros [= ->]; apply took_refl|].
  rewrite elem_of_cons in Hp. destruct (Ascii.eqb a " ").
  - destruct s as [|v s]; [by intros H; apply IH in H; [|tauto]|]. destruct (Ascii.eqb v " "); [|done].
    intros H. apply IH in H; [|tauto]. eapply took_trans; [apply cutspace_took|exact H].
  - destruct s as [|v s]; [done|]. destruct (Ascii.eqb v a) eqn:E; [|done]. apply Ascii.eqb_eq in E as ->.
    intros H. apply IH in H; [|tauto]. apply took_cons; [|done]. intros ->. tauto.
Qed.
Lemma match_took n s r : """"%char ∉ n -> match_name n s = Some r -> took s r.
Proof.
  revert s. induction n as [|a n IH]; intros s Hn; cbn [match_name]; [intros [= ->]; apply took_refl|].
  rewrite elem_of_cons in Hn. destruct s as [|b s]; [done|]. destruct (same_letter a b) eqn:E; [|done].
  intros H. apply IH in H; [|tauto]. apply took_cons; [|done]. intros ->. apply Hn. left.
  unfold same_letter in E. apply orb_true_iff in E as [E|E].
  - apply Z.eqb_eq, Nat2Z.inj in E. rewrite <- (ascii_nat_embedding a), E. symmetry. apply ascii_nat_embedding.
  - exfalso. rewrite !andb_true_iff, !Z.leb_le, Z.eqb_eq in E. destruct E as ((E1 & E2) & _). rewrite E1 in E2.
    change (Z.lor (Z.of_nat (nat_of_ascii """")) 32) with 34 in E2. lia.
Qed.
Lemma lookup_took tab i s x r : Forall (fun n => """"%char ∉ n) tab -> lookup_name tab i s = Some (x, r) -> took s r.
Proof.
  intros Ht. revert i. induction Ht as [|n tab Hn Ht IH]; intros i; cbn [lookup_name]; [done|].
  destruct (match_name n s) eqn:E; [intros [= _ <-]; by eapply match_took|apply IH].
Qed.
Lemma drop_digits_took s : took s (drop_digits s).
Proof.
  induction s as [|a s IH]; [apply took_refl|]. cbn [drop_digits]. destruct (digit_val a) eqn:E; [|apply took_refl].
  apply took_cons; [by apply digit_took in E|done].
Qed.
Lemma fraction_took s : took s (fraction s).
Proof.
  destruct s as [|a [|b s]].
  - apply took_refl.
  - unfold fraction. destruct a as [[] [] [] [] [] [] [] []]; apply took_refl.
  - assert (fraction (a :: b :: s) = if Ascii.eqb a "." then match digit_val b with Some _ => drop_digits s | None => a :: b :: s end else a :: b :: s) as ->.
    { destruct a as [[] [] [] [] [] [] [] []]; reflexivity. }
    destruct (Ascii.eqb a ".") eqn:Ea; [|apply took_refl]. apply Ascii.eqb_eq in Ea as ->.
    destruct (digit_val b) eqn:Eb; [|apply took_refl]. apply digit_took in Eb.
    apply took_cons; [done|]. apply took_cons; [done|]. apply drop_digits_took.
Qed.
Lemma parse_fixdate_plain s t : parse_fixdate s = Some t -> """"%char ∉ s.
Proof.
  assert (Forall (fun n => """"%char ∉ n) shortDayNames) as N1.
  { repeat constructor; apply (bool_decide_eq_false _); by vm_compute. }
  assert (Forall (fun n => """"%char ∉ n) shortMonthNames) as N2.
  { repeat constructor; apply (bool_decide_eq_false _); by vm_compute. }
  assert (forall p, p ∈ [L ", "; L " "; L ":"; L " GMT"] -> """"%char ∉ p) as Hp.
  { intros p Hin. repeat (apply elem_of_cons in Hin as [->|Hin]; [apply (bool_decide_eq_false _); by vm_compute|]). by apply elem_of_nil in Hin. }
  unfold parse_fixdate. intros H. apply took_all. revert H.
  destruct (lookup_name shortDayNames 0 s) as [[i s1]|] eqn:E1; [|done]. apply lookup_took in E1; [|done].
  destruct (skip _ s1) as [s2|] eqn:E2; [|done]. apply skip_took in E2; [|by apply Hp, (bool_decide_eq_true _)].
  destruct (getnum s2 true) as [[day s3]|] eqn:E3; [|done]. apply getnum_took in E3.
  destruct (skip _ s3) as [s4|] eqn:E4; [|done]. apply skip_took in E4; [|by apply Hp, (bool_decide_eq_true _)].
  destruct (lookup_name shortMonthNames 1 s4) as [[month s5]|] eqn:E5; [|done]. apply lookup_took in E5; [|done].
  destruct (skip _ s5) as [s6|] eqn:E6; [|done]. apply skip_took in E6; [|by apply Hp, (bool_decide_eq_true _)].
  destruct (getyear s6) as [[year s7]|] eqn:E7; [|done]. apply getyear_took in E7.
  destruct (skip _ s7) as [s8|] eqn:E8; [|done]. apply skip_took in E8; [|by apply Hp, (bool_decide_eq_true _)].
  destruct (getnum s8 false) as [[hour s9]|] eqn:E9; [|done]. apply getnum_took in E9.
  destruct (skip _ s9) as [s10|] eqn:E10; [|done]. apply skip_took in E10; [|by apply Hp, (bool_decide_eq_true _)].
  destruct (getnum s10 true) as [[mins s11]|] eqn:E11; [|done]. apply getnum_took in E11.
  destruct (skip _ s11) as [s12|] eqn:E12; [|done]. apply skip_took in E12; [|by apply Hp, (bool_decide_eq_true _)].
  destruct (getnum s12 true) as [[sec s13]|] eqn:E13; [|done]. apply getnum_took in E13.
  destruct (skip _ (fraction s13)) as [s14|] eqn:E14; [|done]. apply skip_took in E14; [|by apply Hp, (bool_decide_eq_true _)].
  destruct s14; [|done]. intros _. pose proof (fraction_took s13) as E15.
  do 13 (eapply took_trans; [eassumption|]). eapply took_trans; eassumption.
Qed.

Section Dates.
Variable other : gostr -> option Z.
Hypothesis others : forall s u, other s = Some u -> """"%char ∉ s.
Lemma net_dates s u : net_parse_time other s = Some u -> """"%char ∉ s.
Proof using others.
  unfold net_parse_time. destruct (parse_fixdate s) eqn:E; [intros _; by eapply parse_fixdate_plain|apply others].
Qed.
Lemma net_date_read t : four_digits t -> net_parse_time other (net_date t) = Some t.
Proof. intros H. unfold net_parse_time. by rewrite (fixdate_reads _ _ (net_date_fixdate _ H)). Qed.

(** the one answer, by the condition *)
Lemma by_since T t1 t2 h : T <> [] -> four_digits t1 -> only_condition h (L "If-Modified-Since") (net_date t1) ->
  answers (net_parse_time other) T (Some t2) h (if t2 <=? t1 then NotModified else Content (h (L "Range"))).
Proof.
  intros HT Hd [Hk Ho].
  assert (h (L "If-Match") = []) as H1 by (apply Ho; [by apply (bool_decide_eq_true _)|done]).
  assert (h (L "If-None-Match") = []) as H2 by (apply Ho; [by apply (bool_decide_eq_true _)|done]).
  assert (h (L "If-Unmodified-Since") = []) as H3 by (apply Ho; [by apply (bool_decide_eq_true _)|done]).
  assert (h (L "If-Range") = []) as H4 by (apply Ho; [by apply (bool_decide_eq_true _)|done]).
  assert (passes (net_parse_time other) (Some t2) h) as Hp.
  { right. split; [done|]. rewrite H3. by intros (t & u & _ & Hn & _). }
  pose proof (net_date_read t1 Hd) as Hr. pose proof (fixdate_text _ _ (net_date_fixdate _ Hd)) as [Hne _].
  destruct (Z.leb_spec t2 t1).
  - apply an_since; [done|done|done|]. exists t2, t1. by rewrite Hk.
  - apply an_content; [congruence|by rewrite H2|done| |done|].
    + intros _ (t & u & [= <-] & _ & Hu & Hle). rewrite Hk, Hr in Hu. injection Hu as <-. lia.
    + intros Hn. exfalso. apply Hn. by left.
Qed.
Lemma by_unmodified T t1 t2 h : T <> [] -> four_digits t1 -> only_condition h (L "If-Unmodified-Since") (net_date t1) ->
  answers (net_parse_time other) T (Some t2) h (if t1 <? t2 then Precondition else Content (h (L "Range"))).
Proof.
  intros HT Hd [Hk Ho].
  assert (h (L "If-Match") = []) as H1 by (apply Ho; [by apply (bool_decide_eq_true _)|done]).
  assert (h (L "If-None-Match") = []) as H2 by (apply Ho; [by apply (bool_decide_eq_true _)|done]).
  assert (h (L "If-Modified-Since") = []) as H3 by (apply Ho; [by apply (bool_decide_eq_true _)|done]).
  assert (h (L "If-Range") = []) as H4 by (apply Ho; [by apply (bool_decide_eq_true _)|done]).
  pose proof (net_date_read t1 Hd) as Hr. pose proof (fixdate_text _ _ (net_date_fixdate _ Hd)) as [Hne _].
  destruct (Z.ltb_spec t1 t2).
  - apply an_fails; [congruence|]. intros [Hs|[_ Hn]]; [by rewrite H1 in Hs|]. apply Hn. exists t2, t1. by rewrite Hk.
  - apply an_content; [congruence|by rewrite H2| | |done|].
    + right. split; [done|]. intros (t & u & [= <-] & _ & Hu & Hlt). rewrite Hk, Hr in Hu. injection Hu as <-. lia.
    + intros _ (t & u & _ & Hn & _). by rewrite H3 in Hn.
    + intros Hn. exfalso. apply Hn. by left.
Qed.
Lemma by_range T t1 t2 h : T <> [] -> four_digits t1 -> only_condition h (L "If-Range") (net_date t1) ->
  answers (net_parse_time other) T (Some t2) h (Content (if t1 =? t2 then h (L "Range") else [])).
Proof.
  intros HT Hd [Hk Ho].
  assert (h (L "If-Match") = []) as H1 by (apply Ho; [by apply (bool_decide_eq_true _)|done]).
  assert (h (L "If-None-Match") = []) as H2 by (apply Ho; [by apply (bool_decide_eq_true _)|done]).
  assert (h (L "If-Modified-Since") = []) as H3 by (apply Ho; [by apply (bool_decide_eq_true _)|done]).
  assert (h (L "If-Unmodified-Since") = []) as H4 by (apply Ho; [by apply (bool_decide_eq_true _)|done]).
  pose proof (net_date_read t1 Hd) as Hr. pose proof (fixdate_text _ _ (net_date_fixdate _ Hd)) as [Hne _].
  apply an_content; [congruence|by rewrite H2| | | |].
  - right. split; [done|]. rewrite H4. by intros (t & u & _ & Hn & _).
  - intros _ (t & u & _ & Hn & _). by rewrite H3 in Hn.
  - intros [Hn|(t & [= <-] & Ht)]; [congruence|]. rewrite Hk, Hr in Ht. injection Ht as <-. by rewrite Z.eqb_refl.
  - intros Hn. destruct (Z.eqb_spec t1 t2) as [<-|]; [|done]. exfalso. apply Hn. right. exists t1. by rewrite Hk.
Qed.

Section Top.
Context {A V F O : Type}.
Variable re_ok : gostr -> bool.
Variable re_find : gostr -> gostr -> option (list gostr).
Variable sniff : gostr -> gostr.
Variable parse_form : bool -> request -> gostr * bool -> gmap gostr (list gostr) * bool * gostr.
Variable code : handler A -> prog V.
Variable location : request -> gostr -> gostr.
Variable page : request -> gostr -> Z -> gostr.
Variable modtime : F -> option Z.
Variable strict : bool.
Variable content : F -> gostr.
Variable ctype : F -> gostr.
Variable bnd : gostr.
Variable serve_file : request -> gostr -> gostr -> gostr -> gostr -> O -> list (gostr * option gostr) * Z * list gostr.
Hypothesis serve_file_valid : forall r t etag enc p os, 100 <= (serve_file r t etag enc p os).1.2 <= 999.
Notation send := (net_send strict content ctype bnd).
Notation asks := (file_request re_ok re_find sniff parse_form code location page (net_parse_time other) modtime net_date send serve_file).

Lemma asks_tag e r T f c' : asks e r T f c' -> T <> [] /\ "*"%char ∉ T.
Proof.
  intros (ops & r0 & opts & id & x & body & en & px & v & pre & h & o & open & os & name & mtime & size & base &
    _ & _ & _ & _ & _ & _ & _ & _ & _ & _ & _ & _ & ->).
  change file_tag with static_tag. split; [apply tag_bytes|]. intros Hin.
  destruct (tag_bytes (so_etag o) mtime size base) as [H _]. rewrite Forall_forall in H. by apply H, tag_byte_plain in Hin as (_ & _ & ?).
Qed.
Lemma asks_answer e r T f c' a : asks e r T f c' -> h_get (rq_header r) (L "If-Match") = [] -> h_get (rq_header r) (L "If-None-Match") = [] ->
  answers (net_parse_time other) T (modtime f) (h_get (rq_header r)) a ->
  exists hd, match a with
    | Precondition => rw_sent (cn_rw c') = Some (412, hd) /\ rw_body (cn_rw c') = []
    | NotModified => rw_sent (cn_rw c') = Some (304, hd) /\ rw_body (cn_rw c') = []
    | Content rg => rw_sent (cn_rw c') = Some ((send r [] [] f rg).1.2, hd) /\ rw_body (cn_rw c') = concat (send r [] [] f rg).2 /\
        dated net_date (modtime f) hd
    end.
Proof using others serve_file_valid.
  intros H H1 H2 Ha.
  destruct (conditional_reply re_ok re_find sniff parse_form code location page (net_parse_time other) modtime net_date send serve_file
    (send_valid strict content ctype bnd) serve_file_valid net_dates e r T f c' H) as (b & hd & Hb & Hm).
  { left. rewrite H1. apply not_elem_of_nil. } { left. rewrite H2. apply not_elem_of_nil. }
  assert (b = a) as -> by (eapply answers_fun; eassumption). exists hd. destruct a as [| |rg]; [tauto|tauto|].
  destruct (send r [] [] f rg) as [[hs n] out] eqn:E. destruct (send_keys _ _ _ _ _ _ _ _ _ _ _ _ E) as [Hn Hk].
  destruct Hm as (M1 & M2 & M3 & M4 & M5). cbn [fst snd]. split; [done|]. split.
  - apply M3. intros Hb'. unfold bodiless in Hb'. lia.
  - apply M5. intros kv Hin HL. specialize (Hk kv Hin). rewrite HL in Hk. revert Hk. apply (bool_decide_eq_false _). by vm_compute.
Qed.
Lemma send_all r f : (send r [] [] f []).1.2 = 200 /\ (rq_method r <> L "HEAD" -> concat (send r [] [] f []).2 = content f).
Proof.
  unfold net_send. cbn [parseRange]. assert ((Z.of_nat (length (content f)) <? sumRangesSize []) = false) as ->.
  { apply Z.ltb_ge. change (sumRangesSize []) with 0. lia. }
  cbn [fst snd]. split; [done|]. intros Hm. apply seqb_false in Hm. rewrite Hm. cbn [concat]. by rewrite Nat2Z.id, firstn_all, app_nil_r.
Qed.

(** The file f1, modified at t1, is asked for without conditions; later f2, modified at
    t2, with the date of the first reply. *)
Lemma revisit e1 r1 T1 f1 c1 t1 : asks e1 r1 T1 f1 c1 -> unconditional (h_get (rq_header r1)) ->
  modtime f1 = Some t1 -> four_digits t1 ->
  exists n1 hd1, rw_sent (cn_rw c1) = Some (n1, hd1) /\ fixdate (h_get hd1 (L "Last-Modified")) t1 /\
  forall e2 r2 T2 f2 c2 t2, asks e2 r2 T2 f2 c2 -> modtime f2 = Some t2 ->
  (only_condition (h_get (rq_header r2)) (L "If-Modified-Since") (h_get hd1 (L "Last-Modified")) ->
     (t2 <= t1 -> rw_body (cn_rw c2) = [] /\ exists hd, rw_sent (cn_rw c2) = Some (304, hd)) /\
     (t1 < t2 -> h_get (rq_header r2) (L "Range") = [] ->
        (exists hd, rw_sent (cn_rw c2) = Some (200, hd)) /\ (rq_method r2 = L "GET" -> rw_body (cn_rw c2) = content f2))) /\
  (only_condition (h_get (rq_header r2)) (L "If-Unmodified-Since") (h_get hd1 (L "Last-Modified")) ->
     (t1 < t2 -> rw_body (cn_rw c2) = [] /\ exists hd, rw_sent (cn_rw c2) = Some (412, hd)) /\
     (t2 <= t1 -> h_get (rq_header r2) (L "Range") = [] ->
        (exists hd, rw_sent (cn_rw c2) = Some (200, hd)) /\ (rq_method r2 = L "GET" -> rw_body (cn_rw c2) = content f2))) /\
  (only_condition (h_get (rq_header r2)) (L "If-Range") (h_get hd1 (L "Last-Modified")) ->
     (t1 <> t2 -> (exists hd, rw_sent (cn_rw c2) = Some (200, hd)) /\ (rq_method r2 = L "GET" -> rw_body (cn_rw c2) = content f2)) /\
     (t1 = t2 -> forall hs n out, send r2 [] [] f2 (h_get (rq_header r2) (L "Range")) = (hs, n, out) ->
        (exists hd, rw_sent (cn_rw c2) = Some (n, hd)) /\ rw_body (cn_rw c2) = concat out)).
Proof using others serve_file_valid.
  intros H1 (U1 & U2 & U3 & U4 & U5) Ht1 Hd.
  destruct (asks_tag _ _ _ _ _ H1) as [HT1 _].
  destruct (asks_answer _ _ _ _ _ (Content (h_get (rq_header r1) (L "Range"))) H1 U1 U2) as (hd1 & S1 & _ & D1).
  { apply an_content; [congruence|by rewrite U2| | |done|].
    - right. split; [done|]. rewrite U4. by intros (t & u & _ & Hn & _).
    - intros _ (t & u & _ & Hn & _). by rewrite U3 in Hn.
    - intros Hn. exfalso. apply Hn. by left. }
  specialize (D1 _ Ht1). eexists _, hd1. split; [exact S1|]. rewrite D1. split; [by apply net_date_fixdate|].
  intros e2 r2 T2 f2 c2 t2 H2 Ht2. destruct (asks_tag _ _ _ _ _ H2) as [HT2 _].
  destruct (send_all r2 f2) as [Hall1 Hall2].
  assert (rq_method r2 = L "GET" -> rq_method r2 <> L "HEAD") as Hget by (intros ->; done).
  assert (forall k s, only_condition (h_get (rq_header r2)) k s -> k <> L "If-Match" -> k <> L "If-None-Match" ->
    h_get (rq_header r2) (L "If-Match") = [] /\ h_get (rq_header r2) (L "If-None-Match") = []) as Hoc.
  { intros k s [_ Ho] N1 N2. split; apply Ho; try done; by apply (bool_decide_eq_true _). }
  split; [|split]; intros Hc; destruct (Hoc _ _ Hc ltac:(done) ltac:(done)) as [C1 C2].
  - pose proof (by_since T2 t1 t2 _ HT2 Hd Hc) as Ha. rewrite <- Ht2 in Ha. apply (asks_answer _ _ _ _ _ _ H2 C1 C2) in Ha as (hd & Ha).
    split.
    + intros Hle. rewrite (proj2 (Z.leb_le t2 t1)) in Ha by lia. destruct Ha as [Ha1 Ha2]. eauto.
    + intros Hlt Hrg. rewrite (proj2 (Z.leb_gt t2 t1)), Hrg in Ha by lia. destruct Ha as (Ha1 & Ha2 & _). rewrite Hall1 in Ha1.
      split; [eauto|]. intros Hg. rewrite Ha2. auto.
  - pose proof (by_unmodified T2 t1 t2 _ HT2 Hd Hc) as Ha. rewrite <- Ht2 in Ha. apply (asks_answer _ _ _ _ _ _ H2 C1 C2) in Ha as (hd & Ha).
    split.
    + intros Hlt. rewrite (proj2 (Z.ltb_lt t1 t2)) in Ha by lia. destruct Ha as [Ha1 Ha2]. eauto.
    + intros Hle Hrg. rewrite (proj2 (Z.ltb_ge t1 t2)), Hrg in Ha by lia. destruct Ha as (Ha1 & Ha2 & _). rewrite Hall1 in Ha1.
      split; [eauto|]. intros Hg. rewrite Ha2. auto.
  - pose proof (by_range T2 t1 t2 _ HT2 Hd Hc) as Ha. rewrite <- Ht2 in Ha. apply (asks_answer _ _ _ _ _ _ H2 C1 C2) in Ha as (hd & Ha).
    split.
    + intros Hne. rewrite (proj2 (Z.eqb_neq t1 t2)) in Ha by lia. destruct Ha as (Ha1 & Ha2 & _). rewrite Hall1 in Ha1.
      split; [eauto|]. intros Hg. rewrite Ha2. auto.
    + intros -> hs n out E. rewrite Z.eqb_refl, E in Ha. destruct Ha as (Ha1 & Ha2 & _). eauto.
Qed.
End Top.
End Dates.
