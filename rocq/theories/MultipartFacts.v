(** Multipart forms: what was written is read. *)
From Coq Require Import ZArith NArith.
From Verif Require Import Base GoStr GoStrFacts GetterFacts Header RequestSpec RequestFacts NetMultipart MultipartSpec.

(** ** Media types *)
Lemma trim_left_ascii a s : is_space1 a = false -> (byte_of a < 128)%N -> trim_left_space (a :: s) = a :: s.
Proof.
  intros H1 H2. cbn [trim_left_space]. rewrite H1. destruct s as [|b [|c s]]; [done| |].
  - assert (is_space2 a b = false) as -> by (unfold is_space2; destruct (byte_of a =? 194)%N eqn:E; [apply N.eqb_eq in E; lia|done]). done.
  - assert (is_space2 a b = false) as -> by (unfold is_space2; destruct (byte_of a =? 194)%N eqn:E; [apply N.eqb_eq in E; lia|done]).
    assert (is_space3 a b c = false) as ->; [|done].
    unfold is_space3. repeat match goal with |- context [(byte_of a =? ?n)%N] => destruct (N.eqb_spec (byte_of a) n); [lia|] end. done.
Qed.
Lemma token_ascii a : token_char a = true -> is_space1 a = false /\ (byte_of a < 128)%N.
Proof.
  unfold token_char, is_space1. intros H. apply andb_prop in H as [H _]. apply andb_prop in H as [H1 H2]. apply N.leb_le in H1, H2.
  split; [|lia]. destruct (N.leb_spec 9 (byte_of a)), (N.leb_spec (byte_of a) 13), (N.eqb_spec (byte_of a) 32); try done; lia.
Qed.
Lemma consumeToken_app k s : Forall (fun a => token_char a = true) k -> (forall a, head s = Some a -> token_char a = false) ->
  consumeToken (k ++ s) = (k, s).
Proof.
  induction 1 as [|a k Ha _ IH]; intros Hs; cbn [app].
  - destruct s as [|a s]; [done|]. cbn [consumeToken]. by rewrite (Hs a eq_refl).
  - cbn [consumeToken]. rewrite Ha, IH by done. done.
Qed.
Lemma consumeQuoted_app s t rest : quoted s t -> consumeQuoted (t ++ """"%char :: rest) = Some (s, rest).
Proof.
  induction 1 as [|a s t Ha _ IH|a s t Ha _ IH]; [done| |].
  - cbn [app consumeQuoted]. rewrite !elem_of_cons in Ha.
    destruct (Ascii.eqb_spec a """"); [tauto|]. destruct (Ascii.eqb_spec a "\"); [tauto|].
    destruct (Ascii.eqb_spec a "013"); [tauto|]. destruct (Ascii.eqb_spec a "010"); [tauto|]. cbn [orb]. by rewrite IH.
  - cbn [app consumeQuoted]. assert (tspecial a = true) as ->; [|by rewrite IH].
    rewrite !elem_of_cons, elem_of_nil in Ha. destruct Ha as [->|[->|[]]]; vm_compute; reflexivity.
Qed.
Lemma consumeMediaParam_value k x val rest : k <> [] -> Forall (fun a => token_char a = true) k -> trim_left_space x = x ->
  consumeValue x = (val, rest) -> ~ (val = [] /\ rest = x) -> consumeMediaParam (L "; " ++ k ++ L "=" ++ x) = Some (to_lower k, val, rest).
Proof.
  intros Hk Ht Hx Hc Hn. unfold consumeMediaParam.
  change (L "; " ++ k ++ L "=" ++ x) with (";"%char :: " "%char :: k ++ "="%char :: x).
  rewrite (trim_left_ascii ";") by done. cbn [Ascii.eqb]. change (Ascii.eqb ";" ";") with true. cbv iota.
  assert (trim_left_space (" "%char :: k ++ "="%char :: x) = k ++ "="%char :: x) as ->.
  { destruct k as [|a k]; [done|]. cbn [trim_left_space]. change (is_space1 " ") with true. cbv iota. cbn [app].
    inversion Ht as [|? ? Ha]; subst. apply token_ascii in Ha as [? ?]. by apply trim_left_ascii. }
  rewrite consumeToken_app by (try done; by intros a [= <-]).
  destruct (seqb k []) eqn:E; [by apply seqb_true in E|].
  rewrite (trim_left_ascii "=") by done. change (Ascii.eqb "=" "=") with true. cbv iota zeta. rewrite Hx, Hc.
  destruct (seqb val []) eqn:E1; [|done]. destruct (seqb rest x) eqn:E2; [|done]. apply seqb_true in E1, E2. tauto.
Qed.
Lemma media_step fuel mt (k x val rest : gostr) (m : gmap gostr gostr) : k <> [] -> Forall (fun a => token_char a = true) k -> to_lower k = k -> contains_byte "*" k = false ->
  m !! k = None -> trim_left_space x = x -> consumeValue x = (val, rest) -> ~ (val = [] /\ rest = x) ->
  media_params (S fuel) mt (L "; " ++ k ++ L "=" ++ x) m = media_params fuel mt rest (<[k := val]> m).
Proof.
  intros Hk Ht Hl Hs Hm Hx Hc Hn. pose proof (consumeMediaParam_value k x val rest Hk Ht Hx Hc Hn) as Hp.
  change (L "; " ++ k ++ L "=" ++ x) with (";"%char :: " "%char :: k ++ L "=" ++ x) in *. cbn [media_params].
  rewrite trim_left_ascii by done. cbv iota. rewrite Hp. rewrite Hl, Hs, Hm. done.
Qed.
Lemma media_quoted fuel mt (k s t rest : gostr) (m : gmap gostr gostr) : k <> [] -> Forall (fun a => token_char a = true) k -> to_lower k = k -> contains_byte "*" k = false ->
  m !! k = None -> quoted s t ->
  media_params (S fuel) mt (L "; " ++ k ++ L "=" ++ L """" ++ t ++ L """" ++ rest) m = media_params fuel mt rest (<[k := s]> m).
Proof.
  intros Hk Ht Hl Hs Hm Hq. apply media_step; try done.
  - by apply trim_left_ascii.
  - change (L """" ++ t ++ L """" ++ rest) with (""""%char :: t ++ """"%char :: rest). cbn [consumeValue].
    change (Ascii.eqb """" """") with true. cbv iota. by rewrite (consumeQuoted_app s).
  - intros [_ E]. apply (f_equal length) in E. change (L """") with [""""%char] in E. rewrite !app_length in E. cbn in E. lia.
Qed.
Lemma media_done fuel mt m : media_params (S fuel) mt [] m = Some (mt, m, true).
Proof. done. Qed.
Lemma tokens_true (s : gostr) : forallb token_char s = true -> Forall (fun a => token_char a = true) s.
Proof. intros H. apply Forall_forall. intros a Ha. eapply forallb_forall in H; [exact H|]. by apply elem_of_list_In. Qed.
(** the media type of a text that begins with it and a semicolon *)
Lemma ParseMediaType_app mt v mt' ps ok : (2 <= length mt)%nat -> ";"%char ∉ mt -> trim_space (to_lower mt) = mt' -> checkMediaTypeDisposition mt' = true ->
  (forall fuel, media_params (S (S (S fuel))) mt' (L ";" ++ v) ∅ = Some (mt', ps, ok)) -> ParseMediaType (mt ++ L ";" ++ v) = (mt', ps, ok).
Proof.
  intros H0 H1 H2 H3 H4. unfold ParseMediaType. change (mt ++ L ";" ++ v) with (mt ++ ";"%char :: v) in *.
  assert (index_byte ";" (mt ++ ";"%char :: v) = Some (length mt)) as ->.
  { clear -H1. induction mt as [|a mt IH]; [done|]. cbn [app index_byte]. rewrite elem_of_cons in H1. destruct (Ascii.eqb_spec a ";") as [->|]; [tauto|].
    rewrite IH by tauto. done. }
  rewrite take_app, drop_app, H2, H3. cbn [negb]. destruct mt as [|? [|? mt]]; cbn [length] in H0; [lia|lia|]. cbn [app length]. change (";"%char :: v) with (L ";" ++ v) at 2. by rewrite H4.
Qed.

Lemma disposition_name i d : disposition_text i d ->
  exists ps : gmap gostr gostr, ParseMediaType d = (L "form-data", ps, true) /\ ps !! L "name" = Some (it_name i) /\ ps !! L "filename" = it_file i.
Proof.
  intros [n Hf Hn|f n m Hf Hn Hm].
  - exists (<[L "name" := it_name i]> ∅). split; [|split].
    + change (L "form-data; name=""" ++ n ++ L """") with (L "form-data" ++ L ";" ++ (L " name=""" ++ n ++ L """")).
      apply ParseMediaType_app; [by apply Nat.leb_le|by apply (bool_decide_eq_true _); vm_compute|by vm_compute|by vm_compute|intros fuel].
      change (L ";" ++ L " name=""" ++ n ++ L """") with (L "; " ++ L "name" ++ L "=" ++ L """" ++ n ++ L """" ++ []).
      rewrite (media_quoted _ _ (L "name") (it_name i) n) by (first [done | by apply tokens_true; vm_compute]).
      by apply media_done.
    + apply lookup_insert.
    + rewrite Hf. by rewrite lookup_insert_ne.
  - exists (<[L "filename" := f]> (<[L "name" := it_name i]> ∅)). split; [|split].
    + change (L "form-data; name=""" ++ n ++ L """; filename=""" ++ m ++ L """")
        with (L "form-data" ++ L ";" ++ (L " name=""" ++ n ++ L """; filename=""" ++ m ++ L """")).
      apply ParseMediaType_app; [by apply Nat.leb_le|by apply (bool_decide_eq_true _); vm_compute|by vm_compute|by vm_compute|intros fuel].
      change (L ";" ++ L " name=""" ++ n ++ L """; filename=""" ++ m ++ L """")
        with (L "; " ++ L "name" ++ L "=" ++ L """" ++ n ++ L """" ++ (L "; " ++ L "filename" ++ L "=" ++ L """" ++ m ++ L """" ++ [])).
      rewrite (media_quoted _ _ (L "name") (it_name i) n) by (first [done | by apply tokens_true; vm_compute]).
      rewrite (media_quoted _ _ (L "filename") f m) by (first [done | by apply tokens_true; vm_compute]).
      by apply media_done.
    + by rewrite lookup_insert_ne, lookup_insert.
    + rewrite Hf. apply lookup_insert.
Qed.
Lemma type_boundary b ct : boundary b -> type_text b ct ->
  exists ps : gmap gostr gostr, ParseMediaType ct = (L "multipart/form-data", ps, true) /\ ps !! L "boundary" = Some b.
Proof.
  intros (Hb1 & _ & Hb) Ht. exists (<[L "boundary" := b]> ∅). split; [|apply lookup_insert].
  assert (forall a, boundary_byte a -> (33 <= byte_of a < 127)%N /\ a ∉ [""""; "\"; "013"; "010"]%char) as Hbyte.
  { intros a Ha. unfold boundary_byte in Ha. apply elem_of_list_In in Ha.
    assert (forallb (fun a => (33 <=? byte_of a)%N && (byte_of a <? 127)%N && negb (bool_decide (a ∈ [""""; "\"; "013"; "010"]%char)))
      (L "abcdefghijklmnopqrstuvwxyzABCDEFGHIJKLMNOPQRSTUVWXYZ0123456789'()+_,-./:=?") = true) as Hall by (vm_compute; reflexivity).
    eapply forallb_forall in Hall; [|exact Ha]. apply andb_prop in Hall as [H1 H2]. apply andb_prop in H1 as [H0 H1].
    apply N.leb_le in H0. apply N.ltb_lt in H1. split; [lia|]. apply negb_true_iff, bool_decide_eq_false in H2. done. }
  destruct Ht as [Hp|].
  - change (L "multipart/form-data; boundary=" ++ b) with (L "multipart/form-data" ++ L ";" ++ (L " boundary=" ++ b)).
    apply ParseMediaType_app; [by apply Nat.leb_le|by apply (bool_decide_eq_true _); vm_compute|by vm_compute|by vm_compute|intros fuel].
    change (L ";" ++ L " boundary=" ++ b) with (L "; " ++ L "boundary" ++ L "=" ++ b).
    assert (Forall (fun a => token_char a = true) b) as Htok.
    { apply Forall_forall. intros a Ha. rewrite Forall_forall in Hp, Hb. specialize (Hp a Ha). specialize (Hb a Ha). apply Hbyte in Hb as [Hb _].
      unfold token_char. assert ((33 <=? byte_of a)%N = true) as -> by (apply N.leb_le; lia). assert ((byte_of a <=? 126)%N = true) as -> by (apply N.leb_le; lia).
      cbn [andb]. apply negb_true_iff. unfold tspecial. by apply contains_byte_false. }
    rewrite (media_step _ _ (L "boundary") b b []); try done.
    + by apply tokens_true; vm_compute.
    + destruct b as [|a b]; [done|]. inversion Htok as [|? ? Ha]; subst. apply token_ascii in Ha as [? ?]. by apply trim_left_ascii.
    + destruct b as [|a b]; [done|]. cbn [consumeValue]. assert (Ascii.eqb a """" = false) as ->.
      { inversion Hb as [|? ? Ha]; subst. apply Hbyte in Ha as [_ Ha]. apply Ascii.eqb_neq. intros ->. apply Ha. left. }
      rewrite <- (app_nil_r (a :: b)) at 1. apply consumeToken_app; [done|done].
    + tauto.
  - change (L "multipart/form-data; boundary=""" ++ b ++ L """") with (L "multipart/form-data" ++ L ";" ++ (L " boundary=""" ++ b ++ L """")).
    apply ParseMediaType_app; [by apply Nat.leb_le|by apply (bool_decide_eq_true _); vm_compute|by vm_compute|by vm_compute|intros fuel].
    change (L ";" ++ L " boundary=""" ++ b ++ L """") with (L "; " ++ L "boundary" ++ L "=" ++ L """" ++ b ++ L """" ++ []).
    rewrite (media_quoted _ _ (L "boundary") b b); try done.
    + by apply tokens_true; vm_compute.
    + clear Hb1. induction Hb as [|a b Ha Hb IH]; constructor; [by apply Hbyte|done].
Qed.

(** ** Header lines *)
Lemma index_byte_skip c (x y : gostr) : c ∉ x -> index_byte c (x ++ c :: y) = Some (length x).
Proof.
  induction x as [|a x IH]; intros H; cbn [app index_byte]; [by rewrite Ascii.eqb_refl|].
  rewrite elem_of_cons in H. destruct (Ascii.eqb_spec a c) as [->|]; [tauto|]. rewrite IH by tauto. done.
Qed.
Lemma take_S_length {X} (x : list X) a y : take (S (length x)) (x ++ a :: y) = x ++ [a].
Proof. rewrite cons_middle, app_assoc, take_app_alt; [done|]. rewrite app_length. cbn. lia. Qed.
Lemma drop_S_length {X} (x : list X) a y : drop (S (length x)) (x ++ a :: y) = y.
Proof. rewrite cons_middle, app_assoc, drop_app_alt; [done|]. rewrite app_length. cbn. lia. Qed.
Lemma cut_line_app (l r : gostr) : "010"%char ∉ l -> cut_line (l ++ "010"%char :: r) = Some (l ++ ["010"%char], r).
Proof. intros H. unfold cut_line. by rewrite index_byte_skip, take_S_length, drop_S_length. Qed.
Lemma crlf_cut (l r : gostr) : "010"%char ∉ l -> cut_line (l ++ line_end ++ r) = Some (l ++ line_end, r).
Proof.
  intros H. change (l ++ line_end ++ r) with (l ++ ["013"%char] ++ "010"%char :: r). rewrite app_assoc, cut_line_app.
  - by rewrite <- app_assoc.
  - rewrite elem_of_app, elem_of_list_singleton. intros [?|?]; [done|discriminate].
Qed.
Lemma read_line_app (l r : gostr) : "010"%char ∉ l -> read_line (l ++ line_end ++ r) = Some (l, r).
Proof.
  intros H. unfold read_line. rewrite crlf_cut by done. change (l ++ line_end) with (l ++ ["013"%char] ++ ["010"%char]). rewrite app_assoc.
  rewrite app_length. cbn [length]. rewrite Nat.add_comm. cbn [Nat.add Nat.pred]. rewrite take_app. by rewrite trim_suffix_app.
Qed.
Definition solid (s : gostr) : Prop := (forall a, head s = Some a -> lwsp a = false) /\ (forall a, last s = Some a -> lwsp a = false).
Lemma drop_while_head f (s : gostr) : (forall a, head s = Some a -> f a = false) -> drop_while f s = s.
Proof. destruct s as [|a s]; [done|]. intros H. cbn [drop_while]. by rewrite (H a eq_refl). Qed.
Lemma head_rev (s : gostr) : head (rev s) = last s.
Proof. rewrite <- (rev_involutive s) at 2. destruct (rev s) as [|a l]; [done|]. cbn [rev]. by rewrite last_snoc. Qed.
Lemma trim_lwsp_solid s : solid s -> trim_lwsp s = s.
Proof.
  intros [H1 H2]. unfold trim_lwsp. rewrite (drop_while_head _ s) by done. rewrite drop_while_head, rev_involutive; [done|].
  intros a. rewrite head_rev. apply H2.
Qed.
(** a line of a header that the reader takes as it is *)
Definition plain_line (kv : gostr * gostr) : Prop :=
  kv.1 <> [] /\ Forall (fun a => a ∉ [":"; " "; "009"; "010"]%char) kv.1 /\ "010"%char ∉ kv.2 /\ solid kv.2.
Lemma plain_key kv a : plain_line kv -> a ∈ kv.1 -> a <> ":"%char /\ lwsp a = false /\ a <> "010"%char.
Proof.
  intros (_ & H & _) Ha. rewrite Forall_forall in H. apply H in Ha. rewrite !elem_of_cons in Ha. unfold lwsp.
  repeat split; [tauto| |tauto]. destruct (Ascii.eqb_spec a " "); [tauto|]. destruct (Ascii.eqb_spec a "009"); [tauto|done].
Qed.
Lemma read_continued_line kv (r : gostr) : plain_line kv -> (forall a, head r = Some a -> lwsp a = false) ->
  exists w, read_continued (header_line kv ++ r) = Some (kv.1 ++ ":"%char :: w, r) /\ drop_while lwsp w = kv.2.
Proof.
  intros H Hr. pose proof H as (Hk & Hkb & Hv & Hs). unfold header_line. rewrite <- !app_assoc.
  rewrite (app_assoc (L ": ")), (app_assoc kv.1). unfold read_continued. rewrite read_line_app; cycle 1.
  { rewrite !elem_of_app. intros [Hi|[Hi|Hi]]; [by eapply plain_key in Hi as (_ & _ & ?)| |done]. revert Hi. by apply (bool_decide_eq_true _); vm_compute. }
  set (l := kv.1 ++ L ": " ++ kv.2). assert (contains_byte ":" l = true) as Hc by (apply contains_byte_true; unfold l; set_solver).
  assert (exists a l', l = a :: l') as (a & l' & El). { unfold l. destruct kv.1 as [|a x]; [done|]. by eexists _, _. }
  assert (exists w, trim_lwsp l = kv.1 ++ ":"%char :: w /\ drop_while lwsp w = kv.2) as (w & E1 & E2).
  { destruct kv.2 as [|b v] eqn:Ev.
    - exists []. split; [|done]. unfold l, trim_lwsp. rewrite app_nil_r. rewrite (drop_while_head _ (kv.1 ++ L ": ")).
      + change (L ": ") with ([":"%char] ++ [" "%char]). rewrite app_assoc, rev_app_distr. cbn [rev app drop_while].
        change (lwsp " ") with true. cbv iota. rewrite rev_app_distr. cbn [rev app drop_while]. change (lwsp ":") with false. cbv iota.
        cbn [rev]. by rewrite rev_involutive.
      + destruct kv.1 as [|x k] eqn:Ek; [done|]. intros c [= <-]. eapply plain_key; [done|]. rewrite Ek. left.
    - exists (" "%char :: b :: v). split.
      + apply trim_lwsp_solid. split.
        * unfold l. destruct kv.1 as [|x k] eqn:Ek; [done|]. intros c [= <-]. eapply plain_key; [done|]. rewrite Ek. left.
        * intros c Hc'. destruct Hs as [_ Hs]. apply Hs. rewrite <- Hc'. unfold l. rewrite !last_app. change (":"%char :: " "%char :: b :: v) with (L ": " ++ b :: v). rewrite last_app. destruct (last (b :: v)) eqn:Elast; [done|]. by apply last_None in Elast.
      + change (drop_while lwsp (b :: v) = b :: v). apply drop_while_head. apply Hs. }
  exists w. split; [|done]. rewrite El in *. rewrite Hc, E1. cbn [continued]. destruct r as [|c r]; [done|]. by rewrite (Hr c eq_refl).
Qed.
Definition add_lines (hs : list (gostr * gostr)) (m : header) : header := fold_left (fun m kv => h_add m kv.1 kv.2) hs m.
Lemma lines_head hs (data : gostr) : Forall plain_line hs -> forall a, head (concat (map header_line hs) ++ line_end ++ data) = Some a -> lwsp a = false.
Proof.
  intros [|kv hs' H _] a; cbn [map concat app]; [by intros [= <-]|].
  unfold header_line. pose proof H as (Hk & _). destruct kv.1 as [|x k] eqn:Ek; [done|]. intros [= <-]. eapply plain_key; [done|]. rewrite Ek. left.
Qed.
Lemma mime_header_lines hs (data : gostr) : Forall plain_line hs -> forall fuel m, (length hs < fuel)%nat ->
  mime_header fuel (concat (map header_line hs) ++ line_end ++ data) m = Some (add_lines hs m, data).
Proof.
  induction 1 as [|kv hs H Hhs IH]; intros [|fuel] m Hf; cbn [length] in Hf; try lia.
  - cbn [map concat app mime_header]. unfold read_continued.
    pose proof (read_line_app [] data ltac:(by apply not_elem_of_nil)) as E. cbn [app] in E. by rewrite E.
  - cbn [map concat mime_header]. rewrite <- app_assoc.
    destruct (read_continued_line kv (concat (map header_line hs) ++ line_end ++ data) H (lines_head hs data Hhs)) as (w & E1 & E2).
    rewrite E1. pose proof H as (Hk & _). destruct (kv.1 ++ ":"%char :: w) as [|x y] eqn:Exy; [by destruct kv.1|]. rewrite <- Exy.
    rewrite index_byte_skip; cycle 1. { intros Hi. by eapply plain_key in Hi as (? & _). }
    rewrite take_app, drop_S_length, E2. destruct (seqb kv.1 []) eqn:E; [by apply seqb_true in E|]. rewrite IH by lia. done.
Qed.
Lemma ReadMIMEHeader_lines hs (data : gostr) : Forall plain_line hs ->
  ReadMIMEHeader (concat (map header_line hs) ++ line_end ++ data) = Some (add_lines hs ∅, data).
Proof.
  intros H. unfold ReadMIMEHeader. pose proof (lines_head hs data H) as Hh.
  assert (length hs <= length (concat (map header_line hs) ++ line_end ++ data))%nat as Hlen.
  { rewrite app_length. clear -H. induction H as [|kv hs H _ IH]; [cbn; lia|]. cbn [map concat length]. rewrite app_length.
    unfold header_line at 1. rewrite !app_length in *. change (length line_end) with 2%nat in *. lia. }
  destruct (concat (map header_line hs) ++ line_end ++ data) as [|a s] eqn:E.
  - apply (f_equal length) in E. rewrite !app_length in E. cbn in E. lia.
  - rewrite (Hh a eq_refl). rewrite <- E. apply mime_header_lines; [done|]. rewrite E. lia.
Qed.

(** ** The end of the content *)
Lemma line_end_inside (s : gostr) : "013"%char ∉ s -> forall x y z, x ++ line_end ++ s ++ y = line_end ++ s ++ z -> (length x < 2 + length s)%nat -> x = [].
Proof.
  intros Hs x y z E Hl. destruct x as [|a x]; [done|]. exfalso.
  assert ((line_end ++ s ++ z) !! S (length x) = Some "013"%char) as Hc.
  { rewrite <- E. rewrite lookup_app_r by (cbn; lia). replace (S (length x) - length (a :: x))%nat with 0%nat by (cbn; lia). done. }
  change (line_end ++ s ++ z) with ("013"%char :: "010"%char :: s ++ z) in Hc. destruct x as [|b x]; [done|]. cbn [length] in *. change ((s ++ z) !! length x = Some "013"%char) in Hc.
  rewrite lookup_app_l in Hc by lia. apply elem_of_list_lookup_2 in Hc. done.
Qed.
Lemma scan_found (sep data y : gostr) : "013"%char ∉ sep -> (forall x z, data <> x ++ line_end ++ sep ++ z) -> after_boundary y = true ->
  scan (line_end ++ sep) (data ++ line_end ++ sep ++ y) = Some (data, line_end ++ sep ++ y).
Proof.
  intros Hsep. induction data as [|a data IH]; intros Hd Hy.
  - cbn [app]. destruct (line_end ++ sep ++ y) as [|c r] eqn:E; [done|]. cbn [scan]. rewrite <- E, (app_assoc line_end).
    assert (has_prefix (line_end ++ sep) ((line_end ++ sep) ++ y) = true) as -> by apply has_prefix_app. rewrite drop_app, Hy. done.
  - cbn [app scan]. destruct (has_prefix (line_end ++ sep) (a :: data ++ line_end ++ sep ++ y)) eqn:Ep.
    + exfalso. apply has_prefix_spec in Ep as [z Ez].
      assert (length (a :: data) < 2 + length sep \/ 2 + length sep <= length (a :: data))%nat as [Hl|Hl] by lia.
      * assert (a :: data = []); [|done]. eapply (line_end_inside sep Hsep (a :: data) y z); [|exact Hl]. rewrite (app_assoc line_end sep z). exact Ez.
      * change (a :: data ++ line_end ++ sep ++ y) with ((a :: data) ++ line_end ++ sep ++ y) in Ez.
        apply (f_equal (take (length (a :: data)))) in Ez. rewrite take_app in Ez. rewrite <- app_assoc in Ez.
        apply (Hd [] (take (length (a :: data) - (2 + length sep)) z)). cbn [app]. rewrite Ez at 1.
        rewrite (app_assoc line_end sep z). rewrite take_app_ge by (rewrite app_length; exact Hl). rewrite app_length, <- app_assoc. done.
    + cbn [andb]. rewrite IH; [done| |done]. intros x z E. apply (Hd (a :: x) z). by rewrite E.
Qed.
Lemma separates_inside b data : separates b data -> forall x z, data <> x ++ line_end ++ (L "--" ++ b) ++ z.
Proof. intros H x z E. apply (H (line_end ++ x) z). rewrite E. by rewrite <- !app_assoc. Qed.
Lemma part_content_found b data y : "013"%char ∉ b -> separates b data -> after_boundary y = true ->
  part_content b crlf (data ++ line_end ++ (L "--" ++ b) ++ y) = Some (data, line_end ++ (L "--" ++ b) ++ y).
Proof.
  intros Hb Hs Hy. assert ("013"%char ∉ L "--" ++ b) as Hsep.
  { rewrite elem_of_app. intros [Hi|Hi]; [|done]. revert Hi. by apply (bool_decide_eq_true _); vm_compute. }
  unfold part_content. destruct (has_prefix (dashBoundary b) (data ++ line_end ++ (L "--" ++ b) ++ y)) eqn:Ep.
  - exfalso. apply has_prefix_spec in Ep as [z Ez]. unfold dashBoundary in Ez.
    assert (length data < length (L "--" ++ b) \/ length (L "--" ++ b) <= length data)%nat as [Hl|Hl] by lia.
    + apply Hsep. apply elem_of_list_lookup_2 with (length data). rewrite <- (lookup_app_l _ z) by done. rewrite <- Ez.
      rewrite lookup_app_r by lia. rewrite Nat.sub_diag. done.
    + apply (f_equal (take (length data))) in Ez. rewrite take_app, take_app_ge in Ez by done.
      apply (Hs [] (take (length data - length (L "--" ++ b)) z)). cbn [app]. rewrite (app_assoc (L "--")). by rewrite <- Ez.
  - cbn [andb]. apply scan_found; [done|by apply separates_inside|done].
Qed.

(** ** The parts *)
Lemma boundary_bytes b : boundary b -> "013"%char ∉ b /\ "010"%char ∉ b.
Proof.
  intros (_ & _ & H). rewrite Forall_forall in H. split; intros Hi; apply H in Hi; revert Hi; unfold boundary_byte; apply (bool_decide_eq_true _); vm_compute; reflexivity.
Qed.
Lemma dash_bytes b : boundary b -> "013"%char ∉ L "--" ++ b /\ "010"%char ∉ L "--" ++ b.
Proof.
  intros H. apply boundary_bytes in H as [H1 H2]. split; rewrite elem_of_app; intros [Hi|Hi]; try done; revert Hi; apply (bool_decide_eq_true _); vm_compute; reflexivity.
Qed.
Definition before_body (first : bool) : gostr := if first then [] else line_end.
Lemma final_line b e : drop_while lwsp e = e -> e = [] \/ e = line_end -> isFinalBoundary b crlf ((L "--" ++ b) ++ L "--" ++ e) = true.
Proof.
  intros He H. unfold isFinalBoundary, dashBoundary. rewrite (app_assoc (L "--" ++ b)). rewrite has_prefix_app, drop_app, He. by destruct H as [->| ->].
Qed.
Lemma not_delimiter b first : boundary b -> isBoundaryDelimiterLine b first crlf line_end = None /\ isFinalBoundary b crlf line_end = false.
Proof.
  intros Hb. unfold isBoundaryDelimiterLine, isFinalBoundary, dashBoundary. split; [|by rewrite <- app_assoc].
  assert (has_prefix (L "--" ++ b) line_end = false) as ->; done.
Qed.
Lemma next_part_found b s first n : boundary b -> (exists y, s = (L "--" ++ b) ++ y) ->
  (forall e fuel, (1 <= fuel)%nat -> next_part b fuel first crlf e s = Some n) -> next_part b (S (length (before_body first ++ s))) first crlf false (before_body first ++ s) = Some n.
Proof.
  intros Hb [y Ey] H. destruct first; [apply H; lia|]. change (before_body false) with line_end. cbn [next_part].
  pose proof (crlf_cut [] s ltac:(by apply not_elem_of_nil)) as E. cbn [app] in E. rewrite E. cbv iota.
  destruct (not_delimiter b false Hb) as [-> ->]. change (seqb line_end crlf) with true. cbv iota. apply H. cbn. lia.
Qed.
Lemma next_part_delimiter b s e first fuel : boundary b -> (1 <= fuel)%nat ->
  next_part b fuel first crlf e ((L "--" ++ b) ++ line_end ++ s) = Some (NPart crlf s).
Proof.
  intros Hb Hf. destruct fuel as [|fuel]; [lia|]. cbn [next_part]. rewrite crlf_cut by (by apply dash_bytes).
  unfold isBoundaryDelimiterLine, dashBoundary. rewrite has_prefix_app, drop_app. change (drop_while lwsp line_end) with crlf.
  change (seqb crlf lf) with false. rewrite andb_false_r. change (seqb crlf crlf) with true. done.
Qed.
Lemma index_byte_notin c (s : gostr) : c ∉ s -> index_byte c s = None.
Proof. by rewrite index_byte_None. Qed.
Lemma next_part_final b ep e first fuel : boundary b -> (1 <= fuel)%nat -> ep = [] \/ (exists x, ep = line_end ++ x) ->
  next_part b fuel first crlf e ((L "--" ++ b) ++ L "--" ++ ep) = Some NEnd.
Proof.
  intros Hb Hf Hep. destruct fuel as [|fuel]; [lia|]. cbn [next_part].
  assert ("010"%char ∉ (L "--" ++ b) ++ L "--") as Hn.
  { rewrite elem_of_app. intros [Hi|Hi]; [by apply dash_bytes in Hi|]. revert Hi; apply (bool_decide_eq_true _); vm_compute; reflexivity. }
  destruct Hep as [->|[x ->]].
  - rewrite app_nil_r. unfold cut_line. rewrite index_byte_notin by done. pose proof (final_line b [] eq_refl (or_introl eq_refl)) as Hl.
    rewrite app_nil_r in Hl. by rewrite Hl.
  - rewrite (app_assoc (L "--" ++ b)), crlf_cut, <- app_assoc by done.
    assert (isBoundaryDelimiterLine b first crlf ((L "--" ++ b) ++ L "--" ++ line_end) = None) as ->.
    { unfold isBoundaryDelimiterLine, dashBoundary. rewrite has_prefix_app, drop_app. change (drop_while lwsp (L "--" ++ line_end)) with (L "--" ++ line_end).
      change (seqb (L "--" ++ line_end) lf) with false. rewrite andb_false_r. done. }
    rewrite final_line; [done|done|by right].
Qed.

Lemma other_plain kv : other_header kv -> plain_line kv.
Proof.
  intros (Hk & Ht & _ & _ & Hv & H1 & H2). repeat split; try done.
  - eapply Forall_impl; [exact Ht|]. intros a Ha Hi. rewrite !elem_of_cons, elem_of_nil in Hi.
    destruct Hi as [->|[->|[->|[->|[]]]]]; revert Ha; apply (bool_decide_eq_true _); vm_compute; reflexivity.
  - intros Hi. rewrite Forall_forall in Hv. apply Hv in Hi. vm_compute in Hi. by apply Hi.
  - intros a Ha. unfold lwsp. destruct (Ascii.eqb_spec a " ") as [->|]; [done|]. destruct (Ascii.eqb_spec a "009") as [->|]; [|done].
    destruct kv.2; [done|]. injection Ha as ->. inversion Hv as [|? ? Hx]; subst. vm_compute in Hx. by exfalso; apply Hx.
  - intros a Ha. unfold lwsp. destruct (Ascii.eqb_spec a " ") as [->|]; [done|]. destruct (Ascii.eqb_spec a "009") as [->|]; [|done].
    apply last_Some_elem_of in Ha. rewrite Forall_forall in Hv. apply Hv in Ha. vm_compute in Ha. by exfalso; apply Ha.
Qed.
Lemma quoted_lf s t : quoted s t -> "010"%char ∉ t.
Proof.
  induction 1 as [|a s t Ha _ IH|a s t Ha _ IH]; [by apply not_elem_of_nil| |]; rewrite !elem_of_cons.
  - intros [<-|?]; [|done]. apply Ha. rewrite !elem_of_cons. tauto.
  - intros [?|[<-|?]]; [done| |done]. revert Ha; apply (bool_decide_eq_true _); vm_compute; reflexivity.
Qed.
Lemma disposition_plain i d : disposition_text i d -> plain_line (L "Content-Disposition", d).
Proof.
  intros H. repeat split; cbn [fst snd].
  - done.
  - apply Forall_forall. intros a Ha Hi. rewrite !elem_of_cons, elem_of_nil in Hi.
    destruct Hi as [->|[->|[->|[->|[]]]]]; revert Ha; apply (bool_decide_eq_true _); vm_compute; reflexivity.
  - destruct H as [n Hf Hn|f n m Hf Hn Hm]; rewrite !elem_of_app.
    + intros [Hi|[Hi|Hi]]; [|by apply quoted_lf in Hn|]; revert Hi; apply (bool_decide_eq_true _); vm_compute; reflexivity.
    + intros [Hi|[Hi|[Hi|[Hi|Hi]]]]; [|by apply quoted_lf in Hn| |by apply quoted_lf in Hm|]; revert Hi; apply (bool_decide_eq_true _); vm_compute; reflexivity.
  - by destruct H; intros a [= <-].
  - intros a. destruct H as [n Hf Hn|f n m Hf Hn Hm]; rewrite !app_assoc; change (L """") with [""""%char]; rewrite last_snoc; by intros [= <-].
Qed.
Lemma named_values k (hs : list (gostr * gostr)) : omap (fun kv => if decide (same_name (fst kv) k) then Some (snd kv) else None) hs = header_values k hs.
Proof.
  unfold header_values. induction hs as [|kv hs IH]; [done|]. cbn [List.filter]. set (f := fun kv : gostr * gostr => _) in IH |- *.
  change (omap f (kv :: hs)) with (match f kv with Some y => y :: omap f hs | None => omap f hs end).
  rewrite IH. unfold f, same_name. cbn [fst snd]. destruct (decide (map lower_byte kv.1 = map lower_byte k)) as [E|E].
  - by rewrite bool_decide_eq_true_2.
  - by rewrite bool_decide_eq_false_2.
Qed.
Lemma header_values_app k hs hs' : header_values k (hs ++ hs') = header_values k hs ++ header_values k hs'.
Proof. unfold header_values. by rewrite List.filter_app, map_app. Qed.
Lemma header_values_none k hs : Forall (fun kv => ~ same_name kv.1 k) hs -> header_values k hs = [].
Proof. induction 1 as [|kv hs H _ IH]; [done|]. unfold header_values. cbn [List.filter]. by rewrite bool_decide_eq_false_2. Qed.

(** one part *)
Lemma part_read i t (y : gostr) : part_text i t -> exists h,
  ReadMIMEHeader (t ++ y) = Some (h, it_data i ++ y) /\
  FormName h = it_name i /\ FileName h = default [] (it_file i) /\ h_get h (L "Content-Transfer-Encoding") = [] /\
  (forall k, is_token k -> ~ same_name k (L "Content-Disposition") -> h_values h k = header_values k (it_headers i)).
Proof.
  intros [d before after Hd Eh Ho]. set (hs := before ++ (L "Content-Disposition", d) :: after).
  assert (Forall plain_line hs) as Hp.
  { rewrite Eh in Ho. apply Forall_app in Ho as [H1 H2]. apply Forall_app. split; [eapply Forall_impl; [exact H1|]; apply other_plain|].
    constructor; [by eapply disposition_plain|]. eapply Forall_impl; [exact H2|]; apply other_plain. }
  assert (Forall (fun kv => is_token (fst kv)) hs) as Ht.
  { rewrite Eh in Ho. apply Forall_app in Ho as [H1 H2]. apply Forall_app. split; [eapply Forall_impl; [exact H1|]; intros kv Hkv; apply Hkv|].
    constructor; [apply token_dec; vm_compute; reflexivity|]. eapply Forall_impl; [exact H2|]; intros kv Hkv; apply Hkv. }
  assert (forall k, is_token k -> h_values (add_lines hs ∅) k = header_values k hs) as Hv.
  { intros k Hk. unfold add_lines. etransitivity; [apply (received_values hs ∅ k Hk Ht)|]. rewrite named_values.
    unfold h_values. by rewrite lookup_empty. }
  assert (forall k, is_token k -> ~ same_name k (L "Content-Disposition") -> h_values (add_lines hs ∅) k = header_values k (it_headers i)) as Hother.
  { intros k Hk Hn. rewrite Hv by done. unfold hs. rewrite Eh, !header_values_app. f_equal. unfold header_values. cbn [List.filter fst].
    by rewrite bool_decide_eq_false_2. }
  assert (h_get (add_lines hs ∅) (L "Content-Disposition") = d) as Hcd.
  { unfold h_get. rewrite Hv by (apply token_dec; vm_compute; reflexivity). unfold hs. rewrite header_values_app, header_values_none.
    - cbn [app]. unfold header_values. cbn [List.filter fst]. by rewrite bool_decide_eq_true_2.
    - rewrite Eh in Ho. apply Forall_app in Ho as [H1 _]. eapply Forall_impl; [exact H1|]. intros kv Hkv. apply Hkv. }
  destruct (disposition_name i d Hd) as (ps & Hps & Hn & Hf).
  exists (add_lines hs ∅). split; [|split; [|split; [|split]]].
  - rewrite <- !app_assoc. rewrite <- ReadMIMEHeader_lines by done. f_equal. unfold hs. rewrite map_app, concat_app. cbn [map concat]. by rewrite <- !app_assoc.
  - unfold FormName, disposition. rewrite Hcd, Hps. cbv beta iota zeta. change (seqb (L "form-data") (L "form-data")) with true. cbv iota. exact (f_equal (default []) Hn).
  - unfold FileName, disposition. rewrite Hcd, Hps. cbv beta iota zeta. exact (f_equal (default []) Hf).
  - unfold h_get. rewrite Hother.
    + rewrite header_values_none; [done|]. eapply Forall_impl; [exact Ho|]. intros kv Hkv. apply Hkv.
    + apply token_dec; vm_compute; reflexivity.
    + vm_compute. discriminate.
  - done.
Qed.

Lemma body_start b is body : body_text b is body -> exists y, body = (L "--" ++ b) ++ y /\ after_boundary y = true.
Proof.
  intros [ep Hep|i is' t rest Ht Hs Hr].
  - exists (L "--" ++ ep). by rewrite <- !app_assoc.
  - exists (line_end ++ t ++ line_end ++ rest). by rewrite <- !app_assoc.
Qed.
Lemma f_add_lookup {X} (m : gmap gostr (list X)) k v name : f_add m k v !! name = if decide (k = name) then Some (default [] (m !! name) ++ [v]) else m !! name.
Proof. unfold f_add. destruct (decide (k = name)) as [->|]; [by rewrite lookup_insert|by rewrite lookup_insert_ne]. Qed.
(** what the maps of the loop hold after more parts *)
Definition grows (is : list item) (vs vs' : gmap gostr (list gostr)) (fs fs' : gmap gostr (list upload)) : Prop :=
  (forall name, name <> [] -> vs' !! name = match field_values name is with [] => vs !! name | l => Some (default [] (vs !! name) ++ l) end) /\
  (forall name, name <> [] -> exists us, Forall2 arrived (sent_files name is) us /\
     fs' !! name = match us with [] => fs !! name | _ => Some (default [] (fs !! name) ++ us) end) /\
  vs' !! [] = vs !! [] /\ fs' !! [] = fs !! [].
Lemma fields_length_cons i is : fields_length (i :: is) =
  ((if decide (it_name i = []) then 0 else match is_file i with Some _ => 0 | None => Z.of_nat (length (it_data i)) end) + fields_length is)%Z.
Proof.
  unfold fields_length, named_fields. cbn [List.filter]. destruct (decide (it_name i = [])) as [E|E].
  - by rewrite bool_decide_eq_false_2 by tauto.
  - destruct (is_file i) eqn:Ef; [by rewrite bool_decide_eq_false_2 by (intros [_ ?]; congruence)|].
    rewrite bool_decide_eq_true_2 by done. cbn [map]. change (list_sum (?a :: ?l)) with (a + list_sum l)%nat. by rewrite Nat2Z.inj_add.
Qed.
(** the rounds of the loop *)
Lemma read_parts_end b qp ep : boundary b -> ep = [] \/ (exists x, ep = line_end ++ x) -> forall first fuel mem vals vs fs,
  read_parts b qp (S fuel) first crlf (before_body first ++ L "--" ++ b ++ L "--" ++ ep) mem vals vs fs = Some (Some (vs, fs)).
Proof.
  intros Hb Hep first fuel mem vals vs fs. cbn [read_parts]. rewrite (app_assoc (L "--") b). rewrite (next_part_found b _ first NEnd Hb); [done|by eexists|].
  intros e f Hf'. by apply next_part_final.
Qed.
Lemma read_parts_step b qp i t rest : boundary b -> part_text i t -> separates b (it_data i) -> (exists y, rest = (L "--" ++ b) ++ y /\ after_boundary y = true) -> exists h,
  (forall k, is_token k -> ~ same_name k (L "Content-Disposition") -> h_values h k = header_values k (it_headers i)) /\
  forall first fuel mem vals vs fs,
  read_parts b qp (S fuel) first crlf (before_body first ++ L "--" ++ b ++ line_end ++ t ++ line_end ++ rest) mem vals vs fs =
  (let n := Z.of_nat (length (it_data i)) in
   let go := read_parts b qp fuel false crlf (before_body false ++ rest) in
   if decide (it_name i = []) then go mem vals vs fs
   else match is_file i with
   | None => if (vals - n <? 0)%Z then Some None else go mem (vals - n)%Z (f_add vs (it_name i) (it_data i)) fs
   | Some f => if (mem <? n)%Z then go mem vals vs (f_add fs (it_name i) (mkUpload f h (it_data i) true))
               else go (mem - n)%Z (vals - n)%Z vs (f_add fs (it_name i) (mkUpload f h (it_data i) false))
   end).
Proof.
  intros Hb Ht Hs Hr. destruct (part_read i t (line_end ++ rest) Ht) as (h & E & Hn & Hfile & Hq & Hh). exists h. split; [exact Hh|].
  intros first fuel mem vals vs fs. cbn [read_parts]. rewrite (app_assoc (L "--") b).
  rewrite (next_part_found b _ first (NPart crlf (t ++ line_end ++ rest)) Hb); cycle 1.
  { by eexists. } { intros e f Hf'. by apply next_part_delimiter. }
  rewrite E. destruct Hr as (y & Ey & Hy). pose proof (part_content_found b (it_data i) y (proj1 (boundary_bytes b Hb)) Hs Hy) as Hpc.
  rewrite <- Ey in Hpc. rewrite Hpc, Hq. change (seqb (to_lower []) (L "quoted-printable")) with false. cbv iota zeta. rewrite Hn, Hfile.
  change (before_body false) with line_end. destruct (decide (it_name i = [])) as [En|En].
  { by rewrite En. }
  assert (seqb (it_name i) [] = false) as -> by (by apply seqb_false).
  unfold is_file. destruct (it_file i) as [[|a f]|]; done.
Qed.
Lemma read_parts_body b qp is body : boundary b -> body_text b is body -> forall first fuel mem vals vs fs,
  (length is < fuel)%nat -> (0 <= mem)%Z -> (mem + fields_length is <= vals)%Z ->
  exists vs' fs', read_parts b qp fuel first crlf (before_body first ++ body) mem vals vs fs = Some (Some (vs', fs')) /\ grows is vs vs' fs fs'.
Proof.
  intros Hb Hbody. induction Hbody as [ep Hep|i is t rest Ht Hs Hr IH]; intros first [|fuel] mem vals vs fs Hf Hm Hv; cbn [length] in Hf; try lia.
  - exists vs, fs. rewrite read_parts_end by done. repeat split; try done. intros name _. exists []. split; [constructor|done].
  - destruct (read_parts_step b qp i t rest Hb Ht Hs (body_start b is rest Hr)) as (h & Hh & ->). cbv zeta. rewrite fields_length_cons in Hv.
    destruct (decide (it_name i = [])) as [En|Hne].
    { destruct (IH false fuel mem vals vs fs) as (vs' & fs' & E1 & G1 & G2 & G3); [lia|lia|lia|].
      exists vs', fs'. split; [exact E1|]. split; [|split; [|done]].
      - intros name Hname. rewrite (G1 name Hname). unfold field_values. cbn [List.filter]. rewrite bool_decide_eq_false_2; [done|]. intros [? _]. congruence.
      - intros name Hname. destruct (G2 name Hname) as (us & Hus). exists us. unfold sent_files. cbn [List.filter].
        rewrite (bool_decide_eq_false_2 (it_name i = name /\ _)); [done|]. intros [? _]. congruence. }
    destruct (is_file i) as [f|] eqn:Hif; cycle 1.
    { assert (vals - Z.of_nat (length (it_data i)) <? 0 = false)%Z as -> by (apply Z.ltb_ge; unfold fields_length in *; lia).
      destruct (IH false fuel mem (vals - Z.of_nat (length (it_data i)))%Z (f_add vs (it_name i) (it_data i)) fs) as (vs' & fs' & E1 & G1 & G2 & G3 & G4); [lia|lia|lia|].
      exists vs', fs'. split; [exact E1|]. split; [|split; [|split]].
      - intros name Hname. rewrite (G1 name Hname), f_add_lookup. unfold field_values. cbn [List.filter]. destruct (decide (it_name i = name)) as [Hx|Hx].
        + rewrite (bool_decide_eq_true_2 (it_name i = name /\ _)) by done. cbn [map]. destruct (map it_data _) as [|v l]; [done|]. exact (f_equal Some (eq_sym (app_assoc _ [it_data i] _))).
        + rewrite (bool_decide_eq_false_2 (it_name i = name /\ _)) by tauto. done.
      - intros name Hname. destruct (G2 name Hname) as (us & Hus). exists us. unfold sent_files. cbn [List.filter].
        rewrite (bool_decide_eq_false_2 (it_name i = name /\ _)); [done|]. intros [_ ?]. congruence.
      - by rewrite G3, f_add_lookup, decide_False.
      - done. }
    assert (forall disk mem' vals', (0 <= mem')%Z -> (mem' + fields_length is <= vals')%Z ->
      exists vs' fs', read_parts b qp fuel false crlf (before_body false ++ rest) mem' vals' vs (f_add fs (it_name i) (mkUpload f h (it_data i) disk)) =
        Some (Some (vs', fs')) /\ grows (i :: is) vs vs' fs fs') as Hfileread.
    { intros disk mem' vals' Hm' Hv'. destruct (IH false fuel mem' vals' vs (f_add fs (it_name i) (mkUpload f h (it_data i) disk)))
        as (vs' & fs' & E1 & G1 & G2 & G3 & G4); [lia|lia|lia|].
      exists vs', fs'. split; [exact E1|]. split; [|split; [|split]].
      - intros name Hname. rewrite (G1 name Hname). unfold field_values. cbn [List.filter].
        rewrite (bool_decide_eq_false_2 (it_name i = name /\ _)); [done|]. intros [_ ?]. congruence.
      - intros name Hname. destruct (G2 name Hname) as (us & Hus & El). unfold sent_files. cbn [List.filter]. rewrite f_add_lookup in El. destruct (decide (it_name i = name)) as [Hx|Hx].
        + rewrite (bool_decide_eq_true_2 (it_name i = name /\ _)) by (split; [done|congruence]).
          exists (mkUpload f h (it_data i) disk :: us). split.
          * constructor; [|exact Hus]. split; [|split; [done|exact Hh]]. cbn [up_name]. unfold is_file in Hif. destruct (it_file i) as [[|a g]|]; congruence.
          * rewrite El. destruct us as [|u us]; [done|]. exact (f_equal Some (eq_sym (app_assoc _ [_] _))).
        + rewrite (bool_decide_eq_false_2 (it_name i = name /\ _)) by tauto. by exists us.
      - done.
      - by rewrite G4, f_add_lookup, decide_False. }
    destruct (Z.ltb_spec mem (Z.of_nat (length (it_data i)))); apply Hfileread; lia.
Qed.
Lemma read_parts_much b qp is body : boundary b -> body_text b is body -> forall first fuel mem vals vs fs,
  (length is < fuel)%nat -> (vals < fields_length is)%Z -> (0 < fields_length is)%Z ->
  read_parts b qp fuel first crlf (before_body first ++ body) mem vals vs fs = Some None.
Proof.
  intros Hb Hbody. induction Hbody as [ep Hep|i is t rest Ht Hs Hr IH]; intros first [|fuel] mem vals vs fs Hf Hv H0; cbn [length] in Hf; try lia.
  - done.
  - destruct (read_parts_step b qp i t rest Hb Ht Hs (body_start b is rest Hr)) as (h & _ & ->). cbv zeta. rewrite fields_length_cons in Hv, H0.
    destruct (decide (it_name i = [])) as [En|Hne]; [apply IH; lia|].
    destruct (is_file i) as [f|] eqn:Hif.
    + destruct (Z.ltb_spec mem (Z.of_nat (length (it_data i)))); apply IH; lia.
    + destruct (Z.ltb_spec (vals - Z.of_nat (length (it_data i))) 0); [done|]. apply IH; lia.
Qed.
Lemma body_length b is body : body_text b is body -> (length is <= length body)%nat.
Proof. induction 1; cbn [length]; [lia|]. rewrite !app_length. change (length line_end) with 2%nat. lia. Qed.
Theorem read_form b is body qp max : boundary b -> body_text b is body -> (0 <= max)%Z -> (fields_length is <= 10 * 1024 * 1024)%Z ->
  exists vs fs, ReadForm b qp max body = Some (vs, fs) /\ form_arrived is vs fs.
Proof.
  intros Hb Hbody Hm Hl. pose proof (body_length b is body Hbody) as Hlen.
  destruct (read_parts_body b qp is body Hb Hbody true (S (length body)) max (max + 10 * 1024 * 1024)%Z ∅ ∅) as (vs & fs & E & G1 & G2 & G3 & G4); [lia|lia|lia|].
  change (before_body true ++ body) with body in E. exists vs, fs. split; [unfold ReadForm; by rewrite E|].
  split; [|split; [|split]].
  - intros name Hn. rewrite (G1 name Hn), lookup_empty. by destruct (field_values name is).
  - intros name Hn. destruct (G2 name Hn) as (us & Hus & El). rewrite El, lookup_empty. destruct us as [|u us]; [|].
    + split; [done|]. apply Forall2_nil_inv_r in Hus. done.
    + split; [done|]. split; [done|]. intros Hx. rewrite Hx in Hus. by inversion Hus.
  - by rewrite G3.
  - by rewrite G4.
Qed.
Theorem read_much b is body qp max : boundary b -> body_text b is body -> (0 <= max)%Z -> (max + 10 * 1024 * 1024 < fields_length is)%Z ->
  ReadForm b qp max body = None.
Proof.
  intros Hb Hbody Hm Hl. pose proof (body_length b is body Hbody) as Hlen. unfold ReadForm.
  pose proof (read_parts_much b qp is body Hb Hbody true (S (length body)) max (max + 10 * 1024 * 1024)%Z ∅ ∅ ltac:(lia) ltac:(lia) ltac:(lia)) as E.
  change (before_body true ++ body) with body in E. by rewrite E.
Qed.
Theorem net_multi_form b is ct body qp max : boundary b -> type_text b ct -> body_text b is body -> (0 <= max)%Z -> (fields_length is <= 10 * 1024 * 1024)%Z ->
  exists vs fs, net_multi qp max ct body = Some (vs, fs) /\ form_arrived is vs fs.
Proof.
  intros Hb Hct Hbody Hm Hl. unfold net_multi. destruct (type_boundary b ct Hb Hct) as (ps & Hp & Hpb).
  assert (seqb ct [] = false) as -> by (by destruct Hct). rewrite Hp. cbn [andb]. change (seqb (L "multipart/form-data") (L "multipart/form-data")) with true. cbv iota.
  rewrite Hpb. by apply read_form.
Qed.
Theorem net_multi_much b is ct body qp max : boundary b -> type_text b ct -> body_text b is body -> (0 <= max)%Z -> (max + 10 * 1024 * 1024 < fields_length is)%Z ->
  net_multi qp max ct body = None.
Proof.
  intros Hb Hct Hbody Hm Hl. unfold net_multi. destruct (type_boundary b ct Hb Hct) as (ps & Hp & Hpb).
  assert (seqb ct [] = false) as -> by (by destruct Hct). rewrite Hp. cbn [andb]. change (seqb (L "multipart/form-data") (L "multipart/form-data")) with true. cbv iota.
  rewrite Hpb. by apply (read_much b is).
Qed.

(** ** The fuels are enough *)
Lemma trim_left_len s : (length (trim_left_space s) <= length s)%nat.
Proof. destruct (GetterFacts.trim_left_spec s) as (l & E & _). rewrite E at 2. rewrite app_length. lia. Qed.
Lemma consumeToken_len v : (length (consumeToken v).2 <= length v)%nat.
Proof. induction v as [|a v IH]; [done|]. cbn [consumeToken]. destruct (token_char a); [|done]. destruct (consumeToken v). cbn [snd length] in *. lia. Qed.
Lemma consumeQuoted_len : forall n v t r, (length v <= n)%nat -> consumeQuoted v = Some (t, r) -> (length r <= length v)%nat.
Proof.
  induction n as [|n IH]; intros [|a v] t r Hn E; cbn [length] in *; try done; try lia.
  cbn [consumeQuoted] in E. destruct (Ascii.eqb a """"); [injection E as <- <-; lia|]. destruct (Ascii.eqb a "\").
  - destruct v as [|c v]; [done|]. cbn [length] in *. destruct (tspecial c).
    + destruct (consumeQuoted v) as [[t' r']|] eqn:E'; [|done]. injection E as <- <-. apply IH in E'; lia.
    + destruct (consumeQuoted (c :: v)) as [[t' r']|] eqn:E'; [|done]. injection E as <- <-. apply IH in E'; cbn [length] in *; lia.
  - destruct (_ || _); [done|]. destruct (consumeQuoted v) as [[t' r']|] eqn:E'; [|done]. injection E as <- <-. apply IH in E'; lia.
Qed.
Lemma consumeValue_len v : (length (consumeValue v).2 <= length v)%nat.
Proof.
  destruct v as [|a v]; [done|]. unfold consumeValue. destruct (Ascii.eqb a """"); [|apply consumeToken_len].
  destruct (consumeQuoted v) as [[t r]|] eqn:E; [|done]. eapply consumeQuoted_len in E; [|reflexivity]. cbn [snd length]. lia.
Qed.
Lemma consumeMediaParam_len v k x r : consumeMediaParam v = Some (k, x, r) -> (length r < length v)%nat.
Proof.
  unfold consumeMediaParam. pose proof (trim_left_len v) as H1. destruct (trim_left_space v) as [|a r1]; [done|]. cbn [length] in H1.
  destruct (Ascii.eqb a ";"); [|done]. pose proof (trim_left_len r1) as H2. pose proof (consumeToken_len (trim_left_space r1)) as H3.
  destruct (consumeToken (trim_left_space r1)) as [p r2]. cbn [snd] in H3. destruct (seqb p []); [done|].
  pose proof (trim_left_len r2) as H4. destruct (trim_left_space r2) as [|b r3]; [done|]. cbn [length] in H4. destruct (Ascii.eqb b "="); [|done].
  pose proof (trim_left_len r3) as H5. pose proof (consumeValue_len (trim_left_space r3)) as H6. cbv zeta.
  destruct (consumeValue (trim_left_space r3)) as [y r4]. cbn [snd] in H6. destruct (_ && _); [done|]. intros [= _ _ <-]. lia.
Qed.
Lemma media_fuel mt : forall fuel v ps, (length v < fuel)%nat -> media_params fuel mt v ps <> None.
Proof.
  induction fuel as [|fuel IH]; intros v ps H; [lia|]. cbn [media_params]. pose proof (trim_left_len v) as Hl.
  destruct (trim_left_space v) as [|a v'] eqn:Ev; [done|]. destruct (consumeMediaParam (a :: v')) as [[[k x] r]|] eqn:E; [|done].
  apply consumeMediaParam_len in E. destruct (contains_byte "*" k); [done|]. destruct (ps !! k); [done|]. apply IH. lia.
Qed.
Lemma cut_line_len s l r : cut_line s = Some (l, r) -> (length r < length s)%nat.
Proof.
  unfold cut_line. destruct (index_byte "010" s) as [i|] eqn:E; [|done]. intros [= _ <-]. rewrite drop_length.
  destruct s as [|a s]; [done|]. cbn [length]. lia.
Qed.
Lemma read_line_len s l r : read_line s = Some (l, r) -> (length r < length s)%nat.
Proof. unfold read_line. destruct (cut_line s) as [[x y]|] eqn:E; [|done]. intros [= _ <-]. by eapply cut_line_len. Qed.
Lemma drop_while_len f (s : gostr) : (length (drop_while f s) <= length s)%nat.
Proof. induction s as [|a s IH]; [done|]. cbn [drop_while]. destruct (f a); cbn [length]; lia. Qed.
Lemma continued_fuel : forall n f f' buf s, (length s < f)%nat -> (length s < f')%nat -> (f <= n)%nat -> continued f buf s = continued f' buf s.
Proof.
  induction n as [|n IH]; intros [|f] [|f'] buf s H H' Hn; try lia. cbn [continued]. destruct s as [|a s]; [done|]. destruct (lwsp a); [|done].
  pose proof (drop_while_len lwsp (a :: s)) as Hd. destruct (read_line (drop_while lwsp (a :: s))) as [[l r]|] eqn:E; [|done].
  apply read_line_len in E. apply IH; lia.
Qed.
Lemma continued_len : forall f buf s x r, continued f buf s = Some (x, r) -> (length r <= length s)%nat.
Proof.
  induction f as [|f IH]; intros buf s x r E; [done|]. cbn [continued] in E. destruct s as [|a s]; [by injection E as <- <-|].
  destruct (lwsp a); [|by injection E as <- <-]. pose proof (drop_while_len lwsp (a :: s)) as Hd.
  destruct (read_line (drop_while lwsp (a :: s))) as [[l r']|] eqn:E'; [|done]. apply read_line_len in E'. apply IH in E. lia.
Qed.
Lemma read_continued_len s x r : read_continued s = Some (x, r) -> (length r < length s)%nat.
Proof.
  unfold read_continued. destruct (read_line s) as [[l r']|] eqn:E; [|done]. apply read_line_len in E. destruct l as [|a l]; [by intros [= _ <-]|].
  destruct (contains_byte ":" (a :: l)); [|done]. intros E'. apply continued_len in E'. lia.
Qed.
Lemma mime_header_fuel : forall n f f' s m, (length s < f)%nat -> (length s < f')%nat -> (f <= n)%nat -> mime_header f s m = mime_header f' s m.
Proof.
  induction n as [|n IH]; intros [|f] [|f'] s m H H' Hn; try lia. cbn [mime_header]. destruct (read_continued s) as [[kv r]|] eqn:E; [|done].
  apply read_continued_len in E. destruct kv as [|a kv]; [done|]. destruct (index_byte ":" (a :: kv)) as [i|]; [|done]. cbv zeta.
  destruct (seqb (take i (a :: kv)) []); apply IH; lia.
Qed.
Lemma mime_header_len : forall f s m h r, mime_header f s m = Some (h, r) -> (length r < length s)%nat.
Proof.
  induction f as [|f IH]; intros s m h r E; [done|]. cbn [mime_header] in E. destruct (read_continued s) as [[kv r']|] eqn:E'; [|done].
  apply read_continued_len in E'. destruct kv as [|a kv]; [by injection E as <- <-|]. destruct (index_byte ":" (a :: kv)) as [i|]; [|done]. cbv zeta in E.
  destruct (seqb (take i (a :: kv)) []); apply IH in E; lia.
Qed.
Lemma next_part_fuel b first : forall f nl e s, (length s < f)%nat -> next_part b f first nl e s <> None.
Proof.
  induction f as [|f IH]; intros nl e s H; [lia|]. cbn [next_part]. destruct (cut_line s) as [[l r]|] eqn:E; [|done]. apply cut_line_len in E.
  destruct (isBoundaryDelimiterLine b first nl l); [done|]. destruct (isFinalBoundary b nl l); [done|]. destruct e; [done|].
  destruct first; [apply IH; lia|]. destruct (seqb l nl); [apply IH; lia|done].
Qed.
Lemma next_part_len b first : forall f nl e s nl' r, next_part b f first nl e s = Some (NPart nl' r) -> (length r < length s)%nat.
Proof.
  induction f as [|f IH]; intros nl e s nl' r E; [done|]. cbn [next_part] in E. destruct (cut_line s) as [[l r']|] eqn:E'; [|by destruct (isFinalBoundary b nl s)].
  apply cut_line_len in E'. destruct (isBoundaryDelimiterLine b first nl l); [by injection E as <- <-|]. destruct (isFinalBoundary b nl l); [done|].
  destruct e; [done|]. destruct first; [apply IH in E; lia|]. destruct (seqb l nl); [apply IH in E; lia|done].
Qed.
Lemma scan_len sep : forall s c r, scan sep s = Some (c, r) -> (length r <= length s)%nat.
Proof.
  induction s as [|a s IH]; intros c r E; cbn [scan] in E; destruct (_ && _) in E; try (by injection E as <- <-); [done|].
  destruct (scan sep s) as [[c' r']|] eqn:E'; [|done]. injection E as <- <-. specialize (IH _ _ eq_refl). cbn [length]. lia.
Qed.
Lemma part_content_len b nl s c r : part_content b nl s = Some (c, r) -> (length r <= length s)%nat.
Proof. unfold part_content. destruct (_ && _); [by intros [= <- <-]|]. apply scan_len. Qed.
Lemma ReadMIMEHeader_len s h r : ReadMIMEHeader s = Some (h, r) -> (length r < length s)%nat.
Proof. destruct s as [|a s]; [done|]. unfold ReadMIMEHeader. destruct (lwsp a); [done|]. apply mime_header_len. Qed.
Lemma read_parts_fuel b qp : forall f first nl s mem vals vs fs, (length s < f)%nat -> read_parts b qp f first nl s mem vals vs fs <> None.
Proof.
  induction f as [|f IH]; intros first nl s mem vals vs fs H; [lia|]. cbn [read_parts].
  pose proof (next_part_fuel b first (S (length s)) nl false s ltac:(lia)) as Hn.
  destruct (next_part b (S (length s)) first nl false s) as [[nl' r| |]|] eqn:E; [|done|done|done]. apply next_part_len in E.
  destruct (ReadMIMEHeader r) as [[h r1]|] eqn:E1; [|done]. apply ReadMIMEHeader_len in E1.
  destruct (part_content b nl' r1) as [[c r2]|] eqn:E2; [|done]. apply part_content_len in E2. cbv zeta.
  repeat case_match; try done; apply IH; lia.
Qed.
