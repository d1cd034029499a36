(** DetectContentType tells the client what SniffSpec.v says. *)
From Coq Require Import ZArith NArith.
From Verif Require Import Base GoStr GoStrFacts NetSniff SniffSpec.
Local Open Scope nat_scope.

Lemma sniff_take s : DetectContentType s = sniff_loop sniffSignatures (take (2 ^ 9) s).
Proof.
  unfold DetectContentType, sniffLen. destruct (Nat.ltb_spec (2 ^ 9) (length s)) as [H|H]; [done|]. by rewrite take_ge.
Qed.
(** ** The loop *)
Lemma loop_app l1 l2 d : (forall sig, sig ∈ l1 -> sig_match sig d = []) -> sniff_loop (l1 ++ l2) d = sniff_loop l2 d.
Proof.
  induction l1 as [|sig l1 IH]; intros H; [done|]. cbn [app sniff_loop]. rewrite H by (by left). apply IH. intros x Hx. apply H. by right.
Qed.
Lemma loop_first l1 l2 d ty : (exists sig, sig ∈ l1 /\ sig_match sig d <> []) -> (forall sig, sig ∈ l1 -> sig_match sig d = [] \/ sig_match sig d = ty) ->
  sniff_loop (l1 ++ l2) d = ty.
Proof.
  induction l1 as [|sig l1 IH]; intros (x & Hx & Hm) H; [by apply elem_of_nil in Hx|]. cbn [app sniff_loop].
  destruct (H sig ltac:(by left)) as [E|E].
  - rewrite E. apply IH; [|intros y Hy; apply H; by right]. exists x. split; [|done]. apply elem_of_cons in Hx as [->|Hx]; [congruence|done].
  - destruct (sig_match sig d) as [|a l] eqn:Ea; [|exact E]. subst ty. apply IH; [|intros y Hy; apply H; by right].
    exists x. split; [|done]. apply elem_of_cons in Hx as [->|Hx]; [congruence|done].
Qed.
Definition sig_type (sig : sniffSig) : gostr :=
  match sig with
  | exactSig _ ct | maskedSig _ _ ct => ct
  | htmlSig _ => L "text/html; charset=utf-8"
  | mp4Sig => L "video/mp4"
  | textSig => L "text/plain; charset=utf-8"
  end.
Lemma sig_match_type sig d : sig_match sig d = [] \/ sig_match sig d = sig_type sig.
Proof. destruct sig; cbn [sig_match sig_type]; case_match; auto. Qed.
Lemma loop_type l d : sniff_loop l d = L "application/octet-stream" \/ sniff_loop l d ∈ map sig_type l.
Proof.
  induction l as [|sig l IH]; [by left|]. cbn [sniff_loop map]. destruct (sig_match_type sig d) as [E|E].
  - rewrite E. rewrite elem_of_cons. tauto.
  - destruct (sig_match sig d) as [|a x]; [rewrite elem_of_cons; tauto|]. right. rewrite E. by left.
Qed.
Lemma loop_plain pre d : (forall sig, sig ∈ pre -> sig_match sig d <> L "text/plain; charset=utf-8") -> existsb binary_byte (skipWS d) = false ->
  (sniff_loop (pre ++ [textSig]) d = L "text/plain; charset=utf-8" <-> forall sig, sig ∈ pre -> sig_match sig d = []).
Proof.
  intros Hn Hb. induction pre as [|sig pre IH].
  - cbn [app sniff_loop sig_match]. rewrite Hb. split; [|done]. intros _ sig Hs. by apply elem_of_nil in Hs.
  - cbn [app sniff_loop]. assert (forall x, x ∈ pre -> sig_match x d <> L "text/plain; charset=utf-8") as Hn' by (intros x Hx; apply Hn; by right). specialize (IH Hn').
    pose proof (Hn sig ltac:(by left)) as H0. destruct (sig_match sig d) as [|a x] eqn:E.
    + rewrite IH. split; [|intros H y Hy; apply H; by right]. intros H y [->|Hy]%elem_of_cons; [done|auto].
    + split; [intros Ht; by exfalso|]. intros H. specialize (H sig ltac:(by left)). congruence.
Qed.
(** ** Blanks *)
Lemma isWS_iff a : isWS a = true <-> blank_byte a.
Proof. unfold isWS, blank_byte. rewrite !orb_true_iff, !Ascii.eqb_eq, !elem_of_cons, elem_of_nil. tauto. Qed.
Lemma skip_app w d : Forall blank_byte w -> skipWS (w ++ d) = skipWS d.
Proof. induction 1 as [|a w Ha _ IH]; [done|]. cbn [app skipWS]. apply isWS_iff in Ha. by rewrite Ha. Qed.
Lemma skip_split d : exists w, d = w ++ skipWS d /\ Forall blank_byte w.
Proof.
  induction d as [|a d (w & E & Hw)]; [by exists []|]. cbn [skipWS]. destruct (isWS a) eqn:Ea.
  - exists (a :: w). split; [cbn [app]; congruence|]. constructor; [by apply isWS_iff|done].
  - by exists [].
Qed.
Lemma take_front (s x y : gostr) n : s = x ++ y -> length x <= n -> take n s = x ++ take (n - length x) y.
Proof. intros -> H. by rewrite take_app_ge. Qed.
(** ** Tags *)
Definition all_bytes : list ascii := map ascii_of_nat (seq 0 256).
Lemma all_bytes_in a : a ∈ all_bytes.
Proof. apply elem_of_list_In, in_map_iff. exists (nat_of_ascii a). split; [apply ascii_nat_embedding|]. apply in_seq. pose proof (nat_ascii_bounded a). lia. Qed.
Lemma letters b x : lower_byte (lower_byte b) = lower_byte b -> (forall c, b <> c \/ negb ((97 <=? nat_of_ascii c) && (nat_of_ascii c <=? 122)) = true) ->
  Ascii.eqb b (if is_upper b then clear5 x else x) = true <-> lower_byte x = lower_byte b.
Proof.
  intros _ Hb. assert (forallb (fun b => ((97 <=? nat_of_ascii b) && (nat_of_ascii b <=? 122)) || forallb (fun x => Bool.eqb (Ascii.eqb b (if is_upper b then clear5 x else x)) (Ascii.eqb (lower_byte x) (lower_byte b))) all_bytes) all_bytes = true) as H by (vm_compute; reflexivity).
  rewrite forallb_forall in H. specialize (H b (proj1 (elem_of_list_In _ _) (all_bytes_in b))).
  destruct (Hb b) as [?|Hn]; [done|]. apply negb_true_iff in Hn. rewrite Hn in H. cbn [orb] in H. rewrite forallb_forall in H.
  specialize (H x (proj1 (elem_of_list_In _ _) (all_bytes_in x))). apply Bool.eqb_prop in H. rewrite H. apply Ascii.eqb_eq.
Qed.
Definition no_lower (h : gostr) : bool := forallb (fun c => negb ((97 <=? nat_of_ascii c) && (nat_of_ascii c <=? 122))) h.
Lemma match_html_iff h d : no_lower h = true -> match_html h d = true <-> exists t c r, d = t ++ c :: r /\ map lower_byte t = map lower_byte h /\ (c = " "%char \/ c = ">"%char).
Proof.
  revert d. induction h as [|b h IH]; intros d Hl.
  - destruct d as [|c d]; cbn [match_html].
    + split; [done|]. intros (t & c & r & E & _). by destruct t.
    + unfold isTT. rewrite orb_true_iff, !Ascii.eqb_eq. split.
      * intros H. by exists [], c, d.
      * intros (t & c' & r & E & Et & H). destruct t; [|done]. injection E as -> _. exact H.
  - cbn [no_lower forallb] in Hl. apply andb_true_iff in Hl as [Hb Hl]. destruct d as [|x d]; cbn [match_html].
    + split; [done|]. intros (t & c & r & E & _). by destruct t.
    + rewrite andb_true_iff, IH by exact Hl. assert (Ascii.eqb b (if is_upper b then clear5 x else x) = true <-> lower_byte x = lower_byte b) as ->.
      { apply letters.
        - assert (forallb (fun b => Ascii.eqb (lower_byte (lower_byte b)) (lower_byte b)) all_bytes = true) as H by (vm_compute; reflexivity).
          rewrite forallb_forall in H. apply Ascii.eqb_eq. apply H, elem_of_list_In, all_bytes_in.
        - intros c. destruct (decide (b = c)) as [->|]; auto. }
      split.
      * intros (Hx & t & c & r & -> & Ht & Hc). exists (x :: t), c, r. split; [done|]. split; [cbn [map]; congruence|done].
      * intros (t & c & r & E & Ht & Hc). destruct t as [|x' t]; [done|]. injection E as <- ->. cbn [map] in Ht. injection Ht as Hx Ht. split; [done|]. by exists t, c, r.
Qed.
Definition htmls : list gostr := [L "<!DOCTYPE HTML"; L "<HTML"; L "<HEAD"; L "<SCRIPT"; L "<IFRAME"; L "<H1"; L "<DIV"; L "<FONT"; L "<TABLE"; L "<A"; L "<STYLE";
               L "<TITLE"; L "<B"; L "<BODY"; L "<BR"; L "<P"; L "<!--"].
Lemma tags_same t : t ∈ page_tags <-> exists h, h ∈ htmls /\ map lower_byte h = t.
Proof.
  split.
  - intros H. assert (forallb (fun t => existsb (fun h => seqb (map lower_byte h) t) htmls) page_tags = true) as Hc by (vm_compute; reflexivity).
    rewrite forallb_forall in Hc. apply elem_of_list_In in H. apply Hc, existsb_exists in H as (h & Hh & E). exists h. split; [by apply elem_of_list_In|by apply seqb_true].
  - intros (h & Hh & <-). assert (forallb (fun h => existsb (fun t => seqb (map lower_byte h) t) page_tags) htmls = true) as Hc by (vm_compute; reflexivity).
    rewrite forallb_forall in Hc. apply elem_of_list_In in Hh. apply Hc, existsb_exists in Hh as (t & Ht & E). apply seqb_true in E. rewrite E. by apply elem_of_list_In.
Qed.
Lemma page_iff s : page_start s <-> exists h, h ∈ htmls /\ sig_match (htmlSig h) (take (2 ^ 9) s) <> [].
Proof.
  assert (forall h, h ∈ htmls -> no_lower h = true) as Hl.
  { intros h Hh. assert (forallb no_lower htmls = true) as Hc by (vm_compute; reflexivity). rewrite forallb_forall in Hc. by apply Hc, elem_of_list_In. }
  split.
  - intros (w & t & c & rest & -> & Hw & Ht & Hc & Hn). apply tags_same in Ht as (h & Hh & Et). exists h. split; [done|].
    assert (match_html h (skipWS (take (2 ^ 9) (w ++ t ++ c :: rest))) = true) as Hm; [|cbn [sig_match]; by rewrite Hm].
    rewrite (take_front _ ((w ++ t) ++ [c]) rest); [|by rewrite <- !app_assoc|rewrite app_length; cbn [length]; lia]. rewrite <- !app_assoc. rewrite skip_app by exact Hw.
    assert (exists a t', t = a :: t' /\ isWS a = false) as (a & t' & E & Ha).
    { destruct h as [|b h]; [exfalso; revert Hh; apply (bool_decide_eq_true _); vm_compute; reflexivity|]. destruct t as [|a t']; [done|]. exists a, t'. split; [done|].
      cbn [map] in Et. injection Et as Ea _. apply not_true_is_false. intros Hws. apply isWS_iff in Hws.
      assert (forallb (fun h => match h with b :: _ => forallb (fun a => negb (Ascii.eqb (lower_byte b) (lower_byte a))) ["009"; "010"; "012"; "013"; " "]%char | [] => true end) htmls = true) as Hc' by (vm_compute; reflexivity).
      rewrite forallb_forall in Hc'. apply elem_of_list_In in Hh. specialize (Hc' _ Hh). cbn beta iota in Hc'. rewrite forallb_forall in Hc'.
      apply elem_of_list_In in Hws. apply Hc' in Hws. rewrite Ea, Ascii.eqb_refl in Hws. done. }
    subst t. cbn [app skipWS]. rewrite Ha. apply match_html_iff; [by apply Hl|]. exists (a :: t'), c. eexists. split; [reflexivity|]. done.
  - intros (h & Hh & Hm). cbn [sig_match] in Hm. destruct (match_html h (skipWS (take (2 ^ 9) s))) eqn:E; [|done]. apply match_html_iff in E; [|by apply Hl].
    destruct E as (t & c & r & E & Et & Hc). destruct (skip_split (take (2 ^ 9) s)) as (w & Ew & Hw). rewrite E in Ew.
    assert (length (w ++ t ++ c :: r) <= 2 ^ 9) as Hlen by (rewrite <- Ew; rewrite take_length; lia).
    exists w, t, c, (r ++ drop (2 ^ 9) s). split.
    + rewrite <- (take_drop (2 ^ 9) s) at 1. rewrite Ew. by rewrite <- !app_assoc.
    + split; [done|]. split; [apply tags_same; by exists h|]. split; [done|]. rewrite !app_length in *. cbn [length] in Hlen. lia.
Qed.

(** ** The other signatures *)
Definition xml_sig : sniffSig := maskedSig (exactly (L "<?xml")) true (L "text/xml; charset=utf-8").
Definition bom_sig : sniffSig := maskedSig (exactly (bytes [239; 187; 191]) ++ any 1) false (L "text/plain; charset=utf-8").
Definition mids : list sniffSig :=
  [ exactSig (L "%PDF-") (L "application/pdf");
    exactSig (L "%!PS-Adobe-") (L "application/postscript");
    maskedSig (exactly (bytes [254; 255]) ++ any 2) false (L "text/plain; charset=utf-16be");
    maskedSig (exactly (bytes [255; 254]) ++ any 2) false (L "text/plain; charset=utf-16le");
    maskedSig (exactly (bytes [239; 187; 191]) ++ any 1) false (L "text/plain; charset=utf-8");
    exactSig (bytes [0; 0; 1; 0]) (L "image/x-icon");
    exactSig (bytes [0; 0; 2; 0]) (L "image/x-icon");
    exactSig (L "BM") (L "image/bmp");
    exactSig (L "GIF87a") (L "image/gif");
    exactSig (L "GIF89a") (L "image/gif");
    maskedSig (exactly (L "RIFF") ++ any 4 ++ exactly (L "WEBPVP")) false (L "image/webp");
    exactSig (bytes [137] ++ L "PNG" ++ bytes [13; 10; 26; 10]) (L "image/png");
    exactSig (bytes [255; 216; 255]) (L "image/jpeg");
    maskedSig (exactly (L ".snd")) false (L "audio/basic");
    maskedSig (exactly (L "FORM") ++ any 4 ++ exactly (L "AIFF")) false (L "audio/aiff");
    maskedSig (exactly (L "ID3")) false (L "audio/mpeg");
    maskedSig (exactly (L "OggS" ++ bytes [0])) false (L "application/ogg");
    maskedSig (exactly (L "MThd" ++ bytes [0; 0; 0; 6])) false (L "audio/midi");
    maskedSig (exactly (L "RIFF") ++ any 4 ++ exactly (L "AVI ")) false (L "video/avi");
    maskedSig (exactly (L "RIFF") ++ any 4 ++ exactly (L "WAVE")) false (L "audio/wave");
    mp4Sig;
    exactSig (bytes [26; 69; 223; 163]) (L "video/webm");
    maskedSig (any 34 ++ exactly (L "LP")) false (L "application/vnd.ms-fontobject");
    exactSig (bytes [0; 1; 0; 0]) (L "font/ttf");
    exactSig (L "OTTO") (L "font/otf");
    exactSig (L "ttcf") (L "font/collection");
    exactSig (L "wOFF") (L "font/woff");
    exactSig (L "wOF2") (L "font/woff2");
    exactSig (bytes [31; 139; 8]) (L "application/x-gzip");
    exactSig (L "PK" ++ bytes [3; 4]) (L "application/zip");
    exactSig (L "Rar!" ++ bytes [26; 7; 0]) (L "application/x-rar-compressed");
    exactSig (L "Rar!" ++ bytes [26; 7; 1; 0]) (L "application/x-rar-compressed");
    exactSig (bytes [0] ++ L "asm") (L "application/wasm") ].
Lemma signatures_split : sniffSignatures = (map htmlSig htmls ++ xml_sig :: mids) ++ [textSig].
Proof. reflexivity. Qed.
Lemma prefix_iff m d : has_prefix m d = true <-> starts_with m d.
Proof.
  split.
  - revert d. induction m as [|a m IH]; intros d H; [by exists d|]. destruct d as [|b d]; [done|]. cbn [has_prefix] in H. apply andb_true_iff in H as [E H].
    apply Ascii.eqb_eq in E as ->. destruct (IH _ H) as (r & ->). by exists r.
  - intros (r & ->). apply has_prefix_app.
Qed.
Lemma mask_exact m p d : match_mask (exactly m ++ p) d = true <-> exists r, d = m ++ r /\ match_mask p r = true.
Proof.
  revert d. induction m as [|a m IH]; intros d.
  - cbn. split; [by exists d|]. by intros (r & -> & H).
  - destruct d as [|b d]; cbn [exactly map app match_mask]; [split; [done|by intros (r & ? & _)]|]. fold (exactly m). rewrite andb_true_iff, Ascii.eqb_eq, IH. split.
    + intros (-> & r & -> & H). by exists r.
    + intros (r & E & H). injection E as -> ->. split; [done|]. by exists r.
Qed.
Lemma mask_any n p d : match_mask (any n ++ p) d = true <-> exists x r, d = x ++ r /\ length x = n /\ match_mask p r = true.
Proof.
  revert d. induction n as [|n IH]; intros d.
  - cbn. split; [intros H; by exists [], d|]. intros (x & r & -> & Hx & H). by destruct x.
  - destruct d as [|b d]; cbn [any repeat app match_mask].
    + split; [done|]. intros (x & r & E & Hx & _). by destruct x.
    + fold (any n). rewrite IH. split.
      * intros (x & r & -> & <- & H). by exists (b :: x), r.
      * intros (x & r & E & Hx & H). destruct x as [|b' x]; [done|]. injection E as <- ->. injection Hx as <-. by exists x, r.
Qed.
Lemma mask_exact_all m d : match_mask (exactly m) d = true <-> starts_with m d.
Proof. rewrite <- (app_nil_r (exactly m)), mask_exact. unfold starts_with. split; [intros (r & -> & _)|intros (r & ->)]; by exists r. Qed.
Lemma starts_take m (s : gostr) n : length m <= n -> starts_with m (take n s) <-> starts_with m s.
Proof.
  intros Hn. split; intros (r & E).
  - exists (r ++ drop n s). rewrite <- (take_drop n s) at 1. rewrite E. by rewrite <- app_assoc.
  - rewrite (take_front s m r n E Hn). by eexists.
Qed.
Lemma text_binary a : text_byte a -> binary_byte a = false.
Proof.
  intros H. destruct (binary_byte a) eqn:Eb; [exfalso|done]. unfold text_byte, blank_byte in H. unfold binary_byte in Eb.
  destruct H as [H|[H| ->]]; [|rewrite !elem_of_cons, elem_of_nil in H; destruct H as [->|[->|[->|[->|[->|[]]]]]]; vm_compute in Eb; discriminate|vm_compute in Eb; discriminate].
  rewrite !orb_true_iff, !andb_true_iff, !Nat.leb_le, Nat.eqb_eq in Eb. lia.
Qed.
Lemma text_all d : Forall text_byte d -> existsb binary_byte d = false.
Proof. induction 1 as [|a d Ha _ IH]; [done|]. cbn [existsb]. by rewrite text_binary, IH. Qed.
Lemma binary_start m d : Forall text_byte d -> existsb binary_byte m = true -> ~ starts_with m d.
Proof.
  intros Hd Hm (r & ->). apply Forall_app in Hd as [Hd _]. apply text_all in Hd. congruence.
Qed.
Lemma mp4_text d : Forall text_byte d -> length d <= 2 ^ 9 -> match_mp4 d = false.
Proof.
  intros Hd Hn. unfold match_mp4. destruct (Nat.ltb_spec (length d) 12) as [|H12]; [done|].
  destruct d as [|a [|b [|c [|e d]]]]; [cbn in H12; lia..|]. apply Forall_cons_1 in Hd as [Ha _].
  assert (9 <= nat_of_ascii a) as Ha9.
  { pose proof (text_binary a Ha) as Hb. unfold binary_byte in Hb. rewrite !orb_false_iff in Hb. destruct Hb as [[[Hb _] _] _]. apply Nat.leb_gt in Hb. lia. }
  assert (N.of_nat (length (a :: b :: c :: e :: d)) <? uint32 (a :: b :: c :: e :: d) = true)%N as ->; [|done].
  apply N.ltb_lt. unfold uint32. cbn [take fold_left]. unfold nat_of_ascii in Ha9. change (2 ^ 9) with 512 in Hn.
  set (n := length (a :: b :: c :: e :: d)) in *. clearbody n. assert (9 <= N_of_ascii a)%N as Hz by lia. clear Ha9 Ha. destruct d; cbn [take fold_left]; lia.
Qed.
Ltac in_mids := apply elem_of_list_In; vm_compute; repeat (first [left; reflexivity|right]).
Lemma marked_iff s : Forall text_byte (take (2 ^ 9) s) -> marked s <-> exists sig, sig ∈ mids /\ sig <> bom_sig /\ sig_match sig (take (2 ^ 9) s) <> [].
Proof.
  intros Ht. split.
  - assert (forall m ct, exactSig m ct ∈ mids -> ct <> [] -> length m <= 2 ^ 9 -> starts_with m s -> exists sig, sig ∈ mids /\ sig <> bom_sig /\ sig_match sig (take (2 ^ 9) s) <> []) as He.
    { intros m ct Hin Hct Hn Hs. exists (exactSig m ct). split; [done|]. split; [done|]. cbn [sig_match]. apply (starts_take m s (2 ^ 9)) in Hs; [|done].
      apply prefix_iff in Hs. by rewrite Hs. }
    assert (forall p m ct, maskedSig p false ct ∈ mids -> ct <> [] -> maskedSig p false ct <> bom_sig -> (starts_with m (take (2 ^ 9) s) -> match_mask p (take (2 ^ 9) s) = true) -> length m <= 2 ^ 9 ->
      starts_with m s -> exists sig, sig ∈ mids /\ sig <> bom_sig /\ sig_match sig (take (2 ^ 9) s) <> []) as Hk.
    { intros p m ct Hin Hct Hbom Hp Hn Hs. exists (maskedSig p false ct). split; [done|]. split; [done|]. cbn [sig_match]. apply (starts_take m s (2 ^ 9)) in Hs; [|done].
      apply Hp in Hs. by rewrite Hs. }
    assert (forall p m ct, maskedSig p false ct ∈ mids -> ct <> [] -> p = exactly m -> maskedSig p false ct <> bom_sig -> length m <= 2 ^ 9 ->
      starts_with m s -> exists sig, sig ∈ mids /\ sig <> bom_sig /\ sig_match sig (take (2 ^ 9) s) <> []) as Hm.
    { intros p m ct Hin Hct -> Hbom Hn Hs. apply (Hk (exactly m) m ct); try done. apply mask_exact_all. }
    intros [m Hi Hs|x m Hi Hx Hs|x Hx Hs|x Hx Hs|m a b Hi Hs].
    + rewrite !elem_of_cons, elem_of_nil in Hi. destruct Hi as [->|[->|[->|[->|[->|[->|[->|[->|[->|[->|[->|[->|[]]]]]]]]]]]]].
      * refine (He _ (L "application/pdf") _ _ _ Hs); [in_mids|done|apply Nat.leb_le; reflexivity].
      * refine (He _ (L "application/postscript") _ _ _ Hs); [in_mids|done|apply Nat.leb_le; reflexivity].
      * refine (He _ (L "image/bmp") _ _ _ Hs); [in_mids|done|apply Nat.leb_le; reflexivity].
      * refine (He _ (L "image/gif") _ _ _ Hs); [in_mids|done|apply Nat.leb_le; reflexivity].
      * refine (He _ (L "image/gif") _ _ _ Hs); [in_mids|done|apply Nat.leb_le; reflexivity].
      * eapply (Hm (exactly (L ".snd")) (L ".snd") (L "audio/basic")); [in_mids|done|done|done|apply Nat.leb_le; reflexivity|exact Hs].
      * eapply (Hm (exactly (L "ID3")) (L "ID3") (L "audio/mpeg")); [in_mids|done|done|done|apply Nat.leb_le; reflexivity|exact Hs].
      * refine (He _ (L "font/otf") _ _ _ Hs); [in_mids|done|apply Nat.leb_le; reflexivity].
      * refine (He _ (L "font/collection") _ _ _ Hs); [in_mids|done|apply Nat.leb_le; reflexivity].
      * refine (He _ (L "font/woff") _ _ _ Hs); [in_mids|done|apply Nat.leb_le; reflexivity].
      * refine (He _ (L "font/woff2") _ _ _ Hs); [in_mids|done|apply Nat.leb_le; reflexivity].
      * refine (He _ (L "image/jpeg") _ _ _ Hs); [in_mids|done|apply Nat.leb_le; reflexivity].
    + assert (forall ct, maskedSig (exactly (L "RIFF") ++ any 4 ++ exactly m) false ct ∈ mids -> ct <> [] -> length m <= 8 -> exists sig, sig ∈ mids /\ sig <> bom_sig /\ sig_match sig (take (2 ^ 9) s) <> []) as Hr.
      { intros ct Hin Hct Hn. eapply (Hk (exactly (L "RIFF") ++ any 4 ++ exactly m) (L "RIFF" ++ x ++ m) ct); [done|done|done| | |exact Hs].
        - intros (r & E). apply mask_exact. exists (x ++ m ++ r). split; [rewrite E; by rewrite <- !app_assoc|]. apply mask_any. exists x, (m ++ r). split; [done|]. split; [done|].
          apply mask_exact_all. by exists r.
        - rewrite !app_length, Hx. change (length (L "RIFF")) with 4. change (2 ^ 9) with 512. lia. }
      rewrite !elem_of_cons, elem_of_nil in Hi. destruct Hi as [->|[->|[->|[]]]]; eapply Hr; try (in_mids; fail); try done; apply Nat.leb_le; reflexivity.
    + eapply (Hk (exactly (L "FORM") ++ any 4 ++ exactly (L "AIFF")) (L "FORM" ++ x ++ L "AIFF") (L "audio/aiff")); [in_mids|done|done| | |exact Hs].
      * intros (r & E). apply mask_exact. exists (x ++ L "AIFF" ++ r). split; [rewrite E; by rewrite <- !app_assoc|]. apply mask_any. exists x, (L "AIFF" ++ r). split; [done|]. split; [done|].
        apply mask_exact_all. by exists r.
      * rewrite !app_length, Hx. apply Nat.leb_le. reflexivity.
    + eapply (Hk (any 34 ++ exactly (L "LP")) (x ++ L "LP") (L "application/vnd.ms-fontobject")); [in_mids|done|done| | |exact Hs].
      * intros (r & E). apply mask_any. exists x, (L "LP" ++ r). split; [rewrite E; by rewrite <- !app_assoc|]. split; [done|]. apply mask_exact_all. by exists r.
      * rewrite !app_length, Hx. apply Nat.leb_le. reflexivity.
    + assert (forall ct, maskedSig (exactly m ++ any 2) false ct ∈ mids -> ct <> [] -> length m = 2 -> maskedSig (exactly m ++ any 2) false ct <> bom_sig -> exists sig, sig ∈ mids /\ sig <> bom_sig /\ sig_match sig (take (2 ^ 9) s) <> []) as Hr.
      { intros ct Hin Hct Hn Hb. eapply (Hk (exactly m ++ any 2) (m ++ [a; b]) ct); [done|done|done| | |exact Hs].
        - intros (r & E). apply mask_exact. exists ([a; b] ++ r). split; [rewrite E; by rewrite <- !app_assoc|]. rewrite <- (app_nil_r (any 2)). apply mask_any. exists [a; b], r. done.
        - rewrite !app_length, Hn. apply Nat.leb_le. reflexivity. }
      rewrite !elem_of_cons, elem_of_nil in Hi. destruct Hi as [->|[->|[]]]; eapply Hr; try (in_mids; fail); done.
  - intros (sig & Hin & Hbom & Hm). set (d := take (2 ^ 9) s) in *.
    assert (forall m, starts_with m d -> starts_with m s) as Hd.
    { intros m (r & E). exists (r ++ drop (2 ^ 9) s). rewrite <- (take_drop (2 ^ 9) s) at 1. fold d. rewrite E. by rewrite <- app_assoc. }
    assert (forall m ct, sig = exactSig m ct -> starts_with m d) as He.
    { intros m ct ->. cbn [sig_match] in Hm. apply prefix_iff. by destruct (has_prefix m d). }
    assert (forall p ct, sig = maskedSig p false ct -> match_mask p d = true) as Hp.
    { intros p ct ->. cbn [sig_match] in Hm. by destruct (match_mask p d). }
    assert (forall m ct, sig = exactSig m ct -> existsb binary_byte m = true -> marked s) as Hb.
    { intros m ct E Hbin. exfalso. exact (binary_start m d Ht Hbin (He m ct E)). }
    assert (forall m ct, sig = maskedSig (exactly m) false ct -> existsb binary_byte m = true -> marked s) as Hb2.
    { intros m ct E Hbin. exfalso. apply (binary_start m d Ht Hbin). apply mask_exact_all. by eapply Hp. }
    assert (forall m ct, sig = exactSig m ct -> m ∈ [L "%PDF-"; L "%!PS-Adobe-"; L "BM"; L "GIF87a"; L "GIF89a"; L ".snd"; L "ID3"; L "OTTO"; L "ttcf"; L "wOFF"; L "wOF2"; ["255"; "216"; "255"]%char] -> marked s) as Hx.
    { intros m ct E Hi. apply (mk_start s m Hi), Hd. by eapply He. }
    assert (forall m ct, sig = maskedSig (exactly m) false ct -> m ∈ [L "%PDF-"; L "%!PS-Adobe-"; L "BM"; L "GIF87a"; L "GIF89a"; L ".snd"; L "ID3"; L "OTTO"; L "ttcf"; L "wOFF"; L "wOF2"; ["255"; "216"; "255"]%char] -> marked s) as Hx2.
    { intros m ct E Hi. apply (mk_start s m Hi), Hd, mask_exact_all. by eapply Hp. }
    assert (forall m ct, sig = maskedSig (exactly m ++ any 2) false ct -> m ∈ [["254"; "255"]%char; ["255"; "254"]%char] -> marked s) as Hu.
    { intros m ct E Hi. apply Hp, mask_exact in E as (r & E & H2). rewrite <- (app_nil_r (any 2)) in H2. apply mask_any in H2 as (x & r2 & -> & H2 & _).
      destruct x as [|a [|b [|]]]; try done. apply (mk_utf16 s m a b Hi), Hd. exists r2. rewrite E. by rewrite <- app_assoc. }
    assert (forall m ct, sig = maskedSig (exactly (L "RIFF") ++ any 4 ++ exactly m) false ct -> m ∈ [L "WEBPVP"; L "AVI "; L "WAVE"] -> marked s) as Hr.
    { intros m ct E Hi. apply Hp, mask_exact in E as (r & E & H2). apply mask_any in H2 as (x & r2 & -> & H2 & H3). apply mask_exact_all in H3 as (r3 & ->).
      apply (mk_riff s x m Hi H2), Hd. exists r3. rewrite E. by rewrite <- !app_assoc. }
    unfold mids in Hin. rewrite !elem_of_cons, elem_of_nil in Hin.
    repeat (destruct Hin as [Hin|Hin]); try (eapply Hx; [exact Hin|apply (bool_decide_eq_true _); vm_compute; reflexivity]);
      try (eapply Hx2; [exact Hin|apply (bool_decide_eq_true _); vm_compute; reflexivity]);
      try (eapply Hu; [exact Hin|apply (bool_decide_eq_true _); vm_compute; reflexivity]);
      try (eapply Hr; [exact Hin|apply (bool_decide_eq_true _); vm_compute; reflexivity]);
      try (eapply Hb; [exact Hin|vm_compute; reflexivity]);
      try (eapply Hb2; [exact Hin|vm_compute; reflexivity]); try done.
    + apply Hp, mask_exact in Hin as (r & E & H2). apply mask_any in H2 as (x & r2 & -> & H2 & H3). apply mask_exact_all in H3 as (r3 & ->).
      apply (mk_form s x H2), Hd. exists r3. rewrite E. by rewrite <- !app_assoc.
    + subst sig. cbn [sig_match] in Hm. rewrite mp4_text in Hm; [done|done|]. subst d. rewrite take_length. lia.
    + apply Hp, mask_any in Hin as (x & r2 & E & H2 & H3). apply mask_exact_all in H3 as (r3 & ->).
      apply (mk_font s x H2), Hd. exists r3. rewrite E. by rewrite <- !app_assoc.
Qed.
(** ** Declarations *)
Lemma xml_iff s : xml_start s <-> sig_match xml_sig (take (2 ^ 9) s) <> [].
Proof.
  assert (sig_match xml_sig (take (2 ^ 9) s) <> [] <-> starts_with (L "<?xml") (skipWS (take (2 ^ 9) s))) as ->.
  { unfold xml_sig. cbn [sig_match]. rewrite <- mask_exact_all. by destruct (match_mask (exactly (L "<?xml")) (skipWS (take (2 ^ 9) s))). }
  split.
  - intros (w & rest & -> & Hw & Hn). rewrite (take_front _ (w ++ L "<?xml") rest) by (by rewrite <- ?app_assoc || done). rewrite <- app_assoc, skip_app by exact Hw. by eexists.
  - intros (r & E). destruct (skip_split (take (2 ^ 9) s)) as (w & Ew & Hw). rewrite E in Ew. exists w, (r ++ drop (2 ^ 9) s). split.
    + rewrite <- (take_drop (2 ^ 9) s) at 1. rewrite Ew. by rewrite <- !app_assoc.
    + split; [done|]. assert (length (w ++ L "<?xml" ++ r) <= 2 ^ 9) as Hlen by (rewrite <- Ew, take_length; lia). rewrite !app_length in *. lia.
Qed.
Lemma xml_no_page s : xml_start s -> ~ page_start s.
Proof.
  intros Hx (h & Hh & Hm)%page_iff. cbn [sig_match] in Hm.
  assert (starts_with (L "<?xml") (skipWS (take (2 ^ 9) s))) as (r & E).
  { apply xml_iff in Hx. unfold xml_sig in Hx. cbn [sig_match] in Hx. apply mask_exact_all. by destruct (match_mask (exactly (L "<?xml")) (skipWS (take (2 ^ 9) s))). }
  rewrite E in Hm. unfold htmls in Hh. rewrite !elem_of_cons, elem_of_nil in Hh. repeat (destruct Hh as [->|Hh]); try done.
Qed.
(** ** The answer *)
Global Instance sniffSig_eq : EqDecision sniffSig.
Proof. solve_decision. Defined.
Lemma not_page s : ~ page_start s -> sniff_loop sniffSignatures (take (2 ^ 9) s) = sniff_loop (xml_sig :: mids ++ [textSig]) (take (2 ^ 9) s).
Proof.
  intros H. rewrite signatures_split, <- app_assoc. apply loop_app. intros sig Hs. apply elem_of_list_In, in_map_iff in Hs as (h & <- & Hh).
  destruct (sig_match (htmlSig h) (take (2 ^ 9) s)) as [|a x] eqn:E; [done|]. exfalso. apply H, page_iff. exists h. split; [by apply elem_of_list_In|]. by rewrite E.
Qed.
Lemma loop_not l d t : t <> L "application/octet-stream" -> forallb (fun sig => negb (seqb (sig_type sig) t)) l = true -> sniff_loop l d <> t.
Proof.
  intros H1 H2 E. destruct (loop_type l d) as [Eo|Hi]; [congruence|]. rewrite E in Hi. apply elem_of_list_In, in_map_iff in Hi as (sig & Es & Hs).
  rewrite forallb_forall in H2. apply H2 in Hs. by rewrite (proj2 (seqb_true _ _) Es) in Hs.
Qed.
Lemma page_dec s : page_start s \/ ~ page_start s.
Proof.
  rewrite page_iff. destruct (existsb (fun h => negb (seqb (sig_match (htmlSig h) (take (2 ^ 9) s)) [])) htmls) eqn:E.
  - left. apply existsb_exists in E as (h & Hh & E). exists h. split; [by apply elem_of_list_In|]. intros E'. by rewrite E' in E.
  - right. intros (h & Hh & Hm). apply not_true_iff_false in E. apply E, existsb_exists. exists h. split; [by apply elem_of_list_In|].
    apply negb_true_iff, not_true_is_false. by rewrite seqb_true.
Qed.
Theorem detect_told s : told s (DetectContentType s).
Proof.
  assert (DetectContentType s = html_type <-> page_start s) as Hpage.
  { rewrite sniff_take. split.
    - intros E. destruct (page_dec s) as [?|H]; [done|]. exfalso. rewrite not_page in E by exact H. revert E. apply loop_not; [done|vm_compute; reflexivity].
    - intros (h & Hh & Hm)%page_iff. rewrite signatures_split, <- app_assoc. apply loop_first.
      + exists (htmlSig h). split; [|done]. apply elem_of_list_In, in_map. by apply elem_of_list_In.
      + intros sig Hs. apply elem_of_list_In, in_map_iff in Hs as (h' & <- & _). apply (sig_match_type (htmlSig h')). }
  assert (DetectContentType s = xml_type <-> xml_start s) as Hxml.
  { split.
    - intros E. assert (~ page_start s) as Hp by (intros H; apply Hpage in H; rewrite H in E; vm_compute in E; discriminate).
      apply xml_iff. rewrite sniff_take, not_page in E by exact Hp. cbn [sniff_loop] in E. destruct (sig_match xml_sig (take (2 ^ 9) s)); [|done]. exfalso. revert E.
      apply loop_not; [done|vm_compute; reflexivity].
    - intros Hx. pose proof (xml_no_page s Hx) as Hp. rewrite sniff_take, not_page by exact Hp. cbn [sniff_loop]. apply xml_iff in Hx.
      destruct (sig_match_type xml_sig (take (2 ^ 9) s)) as [E|E]; [congruence|]. destruct (sig_match xml_sig (take (2 ^ 9) s)); [done|]. exact E. }
  split; [exact Hpage|]. split; [exact Hxml|]. split; [|split].
  - intros Ht Hbom. set (d := take (2 ^ 9) s) in *. rewrite sniff_take, signatures_split. fold d.
    assert (existsb binary_byte (skipWS d) = false) as Hb.
    { apply text_all. destruct (skip_split d) as (w & E & _). rewrite E in Ht. by apply Forall_app in Ht as [_ Ht]. }
    assert (sig_match bom_sig d = []) as Hnb.
    { destruct (sig_match bom_sig d) as [|a x] eqn:E; [done|]. exfalso. apply Hbom. unfold bom_sig in E. cbn [sig_match] in E.
      destruct (match_mask (exactly (bytes [239; 187; 191]) ++ any 1) d) eqn:Em; [|done]. apply mask_exact in Em as (r & Er & _).
      apply (starts_take utf8_mark s (2 ^ 9)); [apply Nat.leb_le; reflexivity|]. exists r. exact Er. }
    etransitivity; [apply loop_plain; [|exact Hb]|].
    + intros sig Hs E. destruct (decide (sig = bom_sig)) as [->|Hne]; [rewrite Hnb in E; discriminate E|]. destruct (sig_match_type sig d) as [E'|E']; [rewrite E' in E; discriminate E|]. rewrite E in E'.
      assert (forallb (fun sig => bool_decide (sig = bom_sig) || negb (seqb (L "text/plain; charset=utf-8") (sig_type sig))) (map htmlSig htmls ++ xml_sig :: mids) = true) as Hc by (vm_compute; reflexivity).
      rewrite forallb_forall in Hc. apply elem_of_list_In in Hs. apply Hc in Hs. apply orb_true_iff in Hs as [Hs|Hs]; [by apply bool_decide_eq_true in Hs|].
      by rewrite (proj2 (seqb_true _ _) E') in Hs.
    + rewrite page_iff, xml_iff, marked_iff by exact Ht. fold d. split.
      * intros H. split; [|split].
        -- intros (h & Hh & Hm). apply Hm, H, elem_of_app. left. apply elem_of_list_In, in_map. by apply elem_of_list_In.
        -- intros Hm. apply Hm, H, elem_of_app. right. by left.
        -- intros (sig & Hs & _ & Hm). apply Hm, H, elem_of_app. right. by right.
      * intros (H1 & H2 & H3) sig [Hs|[->|Hs]%elem_of_cons]%elem_of_app.
        -- apply elem_of_list_In, in_map_iff in Hs as (h & <- & Hh). destruct (sig_match (htmlSig h) d) as [|a x] eqn:E; [done|]. exfalso. apply H1. exists h.
           split; [by apply elem_of_list_In|]. by rewrite E.
        -- destruct (sig_match xml_sig d) as [|a x] eqn:E; [done|]. exfalso. by apply H2.
        -- destruct (decide (sig = bom_sig)) as [->|Hne]; [done|]. destruct (sig_match sig d) as [|a x] eqn:E; [done|]. exfalso. apply H3. exists sig. by rewrite E.
  - intros Ht Hbom. apply (starts_take utf8_mark s (2 ^ 9)) in Hbom; [|apply Nat.leb_le; reflexivity]. rewrite sniff_take. destruct Hbom as (r & E). rewrite E in *. destruct r as [|a r]; reflexivity.
  - intros t Hty E. rewrite sniff_take in E. set (l := sniffSignatures) in E.
    assert (t ∈ L "application/octet-stream" :: map sig_type l) as Hi.
    { rewrite <- E. apply elem_of_cons. apply loop_type. }
    assert (forallb (fun t => negb (has_prefix (L "application/json") t || has_prefix (L "application/xml") t || has_prefix (L "application/javascript") t || has_prefix (L "image/svg") t || has_prefix (L "text/css") t))
      (L "application/octet-stream" :: map sig_type l) = true) as Hc by (vm_compute; reflexivity).
    rewrite forallb_forall in Hc. apply elem_of_list_In in Hi. apply Hc in Hi. apply negb_true_iff in Hi. rewrite !orb_false_iff in Hi. destruct Hi as [[[[H1 H2] H3] H4] H5].
    rewrite <- !prefix_iff in Hty. destruct Hty as [?|[?|[?|[?|?]]]]; congruence.
Qed.
(** ** What follows of the specification alone *)
Lemma page_opens s : page_start s -> opens_tag s.
Proof.
  intros (w & t & c & rest & -> & Hw & Ht & _). destruct t as [|a t]; [exfalso; revert Ht; apply (bool_decide_eq_true _); vm_compute; reflexivity|].
  exists w, (t ++ c :: rest). split; [|done]. cbn [app]. do 2 f_equal. cbn [map] in Ht.
  assert (forallb (fun t => match t with b :: _ => Ascii.eqb b "<" | [] => false end) page_tags = true) as Hc by (vm_compute; reflexivity).
  rewrite forallb_forall in Hc. apply elem_of_list_In in Ht. apply Hc, Ascii.eqb_eq in Ht.
  assert (forallb (fun a => implb (Ascii.eqb (lower_byte a) "<") (Ascii.eqb a "<")) all_bytes = true) as Hl by (vm_compute; reflexivity).
  rewrite forallb_forall in Hl. specialize (Hl a (proj1 (elem_of_list_In _ _) (all_bytes_in a))). rewrite Ht in Hl. cbn in Hl. by apply Ascii.eqb_eq in Hl.
Qed.
Lemma xml_opens s : xml_start s -> opens_tag s.
Proof. intros (w & rest & -> & Hw & _). by eexists w, _. Qed.
Lemma told_text s ty : told s ty -> ~ opens_tag s -> ty <> html_type /\ ty <> xml_type /\
  (Forall text_byte (take (2 ^ 9) s) -> ~ marked s -> ty = plain_type).
Proof.
  intros (H1 & H2 & H3 & H4 & _) Ho. split; [by intros Hp%H1%page_opens|]. split; [by intros Hp%H2%xml_opens|]. intros Ht Hm.
  destruct (has_prefix utf8_mark s) eqn:E.
  - apply H4; [done|]. by apply prefix_iff.
  - apply H3; [done|by rewrite <- prefix_iff, E|]. split; [by intros Hp%page_opens|]. split; [by intros Hp%xml_opens|done].
Qed.
Lemma told_json s ty : told s ty -> json_like s -> Forall text_byte (take (2 ^ 9) s) -> (forall x, length x = 34 -> ~ starts_with (x ++ L "LP") s) -> ty = plain_type.
Proof.
  intros H (a & rest & -> & Ha & Htt) Ht Hlp. eapply told_text; [exact H| |exact Ht|].
  - intros (w & r & E & Hw). destruct w as [|b w]; injection E as -> _.
    + revert Ha. apply (bool_decide_eq_true _). vm_compute. reflexivity.
    + apply Forall_cons_1 in Hw as [Hb _]. assert (forallb (fun b => negb (bool_decide (b ∈ L "{[""-0123456789tfn"))) ["009"; "010"; "012"; "013"; " "]%char = true) as Hc by (vm_compute; reflexivity).
      rewrite forallb_forall in Hc. apply elem_of_list_In in Hb. apply Hc, negb_true_iff, bool_decide_eq_false in Hb. done.
  - assert (forall m, starts_with m (a :: rest) -> match m with b :: _ => b = a | [] => True end) as Hs.
    { intros m (r & E). destruct m as [|b m]; [done|]. by injection E as -> _. }
    intros [m Hi Hm|x m Hi Hx Hm|x Hx Hm|x Hx Hm|m b c Hi Hm].
    + destruct (decide (m = L "ttcf")) as [->|Hne]; [done|].
      assert (forallb (fun m => bool_decide (m = L "ttcf") || match m with b :: _ => negb (bool_decide (b ∈ L "{[""-0123456789tfn")) | [] => false end)
        [L "%PDF-"; L "%!PS-Adobe-"; L "BM"; L "GIF87a"; L "GIF89a"; L ".snd"; L "ID3"; L "OTTO"; L "ttcf"; L "wOFF"; L "wOF2"; ["255"; "216"; "255"]%char] = true) as Hc by (vm_compute; reflexivity).
      rewrite forallb_forall in Hc. apply elem_of_list_In in Hi. apply Hc, orb_true_iff in Hi as [Hi|Hi]; [by apply bool_decide_eq_true in Hi|].
      apply Hs in Hm. destruct m as [|b m]; [done|]. subst b. apply negb_true_iff, bool_decide_eq_false in Hi. done.
    + apply Hs in Hm. assert ("R"%char = a) as <- by exact Hm. revert Ha. apply (bool_decide_eq_true _). vm_compute. reflexivity.
    + apply Hs in Hm. assert ("F"%char = a) as <- by exact Hm. revert Ha. apply (bool_decide_eq_true _). vm_compute. reflexivity.
    + by apply (Hlp x Hx).
    + apply Hs in Hm. rewrite !elem_of_cons, elem_of_nil in Hi. destruct Hi as [->|[->|[]]]; cbn in Hm; subst a; revert Ha; apply (bool_decide_eq_true _); vm_compute; reflexivity.
Qed.
Lemma told_fun s ty ty' : told s ty -> told s ty' -> Forall text_byte (take (2 ^ 9) s) -> ~ marked s -> ty = ty'.
Proof.
  intros (H1 & H2 & H3 & H4 & _) (H1' & H2' & H3' & H4' & _) Ht Hm. destruct (has_prefix utf8_mark s) eqn:E.
  - apply prefix_iff in E. by rewrite H4, H4'.
  - assert (~ starts_with utf8_mark s) as Hn by (by rewrite <- prefix_iff, E). specialize (H3 Ht Hn). specialize (H3' Ht Hn).
    destruct (page_dec s) as [Hp|Hp]; [by rewrite (proj2 H1 Hp), (proj2 H1' Hp)|].
    assert (xml_start s \/ ~ xml_start s) as [Hx|Hx] by (rewrite xml_iff; destruct (sig_match xml_sig (take (2 ^ 9) s)); [by right; intros []|by left]).
    + by rewrite (proj2 H2 Hx), (proj2 H2' Hx).
    + by rewrite (proj2 H3), (proj2 H3').
Qed.
