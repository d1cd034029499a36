(** Facts about the helpers of util.go. *)
From Verif Require Import Base GoStr GoStrFacts Strconv Header PathClean Util UtilSpec StrconvFacts.

(** ** ETags (C36) *)
Lemma etag_inj t n t' n' : GenerateETag t n = GenerateETag t' n' -> t = t' /\ n = n'.
Proof.
  unfold GenerateETag. intros E. change (L "-") with ["-"%char] in E. cbn [app] in E.
  apply format_Z_sep_inj in E as [-> E]; [|lia]. apply format_Z_inj in E as ->; [done|lia].
Qed.
Lemma etag2_inj t n s t' n' s' : GenerateETag2 t n s = GenerateETag2 t' n' s' -> t = t' /\ n = n' /\ s = s'.
Proof.
  unfold GenerateETag2. intros E. change (L "-") with ["-"%char] in E. cbn [app] in E.
  apply format_Z_sep_inj in E as [-> E]; [|lia]. apply format_Z_sep_inj in E as [-> E]; [|lia].
  apply hex_string_inj in E as ->. done.
Qed.

(** the parts of a tag can be read *)
Lemma hex_number_format n : hex_number (format_N 16 n) = Some n.
Proof.
  unfold hex_number. pose proof (format_N_nonempty 16 n ltac:(lia)) as Hne. destruct (format_N 16 n) eqn:E; [done|]. rewrite <- E. clear Hne E.
  unfold format_N. destruct (digits_spec 16 n) as (H1 & H2 & _); [lia|]. rewrite <- H1 at 2. unfold dvalue. generalize 0%N. clear H1.
  induction H2 as [|d l Hd _ IH]; intros v; [done|]. cbn [map fold_left]. rewrite digit_char_val by exact Hd. rewrite IH. do 2 f_equal. lia.
Qed.
Lemma hex_text_format s : hex_text (hex_string s) = Some s.
Proof.
  induction s as [|a s IH]; [done|]. unfold hex_string. cbn [flat_map hex_byte app hex_text]. fold (hex_string s).
  pose proof (N_ascii_bounded a) as Hb.
  rewrite !digit_char_val by (first [apply N.mod_lt; lia|apply N.div_lt_upper_bound; lia]). rewrite IH. do 2 f_equal.
  rewrite <- N.div_mod by lia. apply ascii_N_embedding.
Qed.
Lemma split_front c x y : c ∉ x -> split_byte c (x ++ c :: y) = x :: split_byte c y.
Proof.
  induction x as [|a x IH]; intros Hx; cbn [app split_byte]; [by rewrite Ascii.eqb_refl|].
  replace (Ascii.eqb a c) with false by (symmetry; apply Ascii.eqb_neq; intros ->; apply Hx; left).
  rewrite IH by (intros H; apply Hx; by right). done.
Qed.
Lemma split_whole c x : c ∉ x -> split_byte c x = [x].
Proof.
  induction x as [|a x IH]; intros Hx; cbn [split_byte]; [done|].
  replace (Ascii.eqb a c) with false by (symmetry; apply Ascii.eqb_neq; intros ->; apply Hx; left).
  rewrite IH by (intros H; apply Hx; by right). done.
Qed.
Lemma hex_string_no_minus s : "-"%char ∉ hex_string s.
Proof.
  intros H. induction s as [|a s IH]; [by apply elem_of_nil in H|]. unfold hex_string in H. cbn [flat_map hex_byte app] in H.
  pose proof (N_ascii_bounded a) as Hb. apply elem_of_cons in H as [H|H]; [|apply elem_of_cons in H as [H|H]].
  - symmetry in H. apply digit_char_not_minus in H; [done|]. apply N.div_lt_upper_bound; lia.
  - symmetry in H. apply digit_char_not_minus in H; [done|]. apply N.mod_lt; lia.
  - by apply IH.
Qed.
Lemma format_Z_reads z : (0 <= z)%Z -> "-"%char ∉ format_Z 16 z /\ hex_number (format_Z 16 z) = Some (Z.to_N z).
Proof.
  intros Hz. assert (format_Z 16 z = format_N 16 (Z.to_N z)) as -> by (destruct z; [done|done|lia]).
  split; [apply format_N_no_minus; lia|apply hex_number_format].
Qed.
Lemma etag_reads t n : (0 <= t)%Z -> (0 <= n)%Z ->
  exists a b, split_byte "-" (GenerateETag t n) = [a; b] /\ hex_number a = Some (Z.to_N t) /\ hex_number b = Some (Z.to_N n).
Proof.
  intros Ht Hn. destruct (format_Z_reads t Ht) as [H1 H2]. destruct (format_Z_reads n Hn) as [H3 H4].
  exists (format_Z 16 t), (format_Z 16 n). split; [|done]. unfold GenerateETag. change (L "-" ++ format_Z 16 n) with ("-"%char :: format_Z 16 n).
  by rewrite split_front, split_whole.
Qed.
Lemma etag2_reads t n s : (0 <= t)%Z -> (0 <= n)%Z ->
  exists a b c, split_byte "-" (GenerateETag2 t n s) = [a; b; c] /\ hex_number a = Some (Z.to_N t) /\ hex_number b = Some (Z.to_N n) /\ hex_text c = Some s.
Proof.
  intros Ht Hn. destruct (format_Z_reads t Ht) as [H1 H2]. destruct (format_Z_reads n Hn) as [H3 H4].
  exists (format_Z 16 t), (format_Z 16 n), (hex_string s). split; [|split_and!; [done|done|apply hex_text_format]].
  unfold GenerateETag2. change (L "-" ++ format_Z 16 n ++ L "-" ++ hex_string s) with ("-"%char :: format_Z 16 n ++ "-"%char :: hex_string s).
  rewrite split_front by done. rewrite split_front by done. rewrite split_whole; [done|]. apply hex_string_no_minus.
Qed.

(** ** Content-Disposition (C37) *)
Lemma byte_all (P : ascii -> bool) : forallb P (map ascii_of_N (map N.of_nat (seq 0 256))) = true -> forall a, P a = true.
Proof.
  intros H a. rewrite forallb_forall in H. apply H. rewrite map_map. apply in_map_iff.
  exists (N.to_nat (N_of_ascii a)). split; [rewrite N2Nat.id; apply ascii_N_embedding|].
  apply in_seq. pose proof (N_ascii_bounded a). lia.
Qed.
(** one byte of the encoded name: it decodes to itself and is harmless *)
Definition esc_byte (a : ascii) : gostr := if path_unreserved a then [a] else pct_byte a.
Definition delicateb (a : ascii) : bool :=
  ((N_of_ascii a <=? 32) || (127 <=? N_of_ascii a))%N ||
  existsb (Ascii.eqb a) [","; ";"; """"; "'"; "\"; "/"; "("; ")"; "<"; ">"; "["; "]"; "{"; "}"; "?"; "*"]%char.
Lemma delicateb_spec a : delicateb a = true <-> delicate a.
Proof.
  unfold delicateb, delicate. rewrite !orb_true_iff, existsb_exists, !N.leb_le. split.
  - intros [[H|H]|(b & Hb & E)]; [tauto|tauto|]. apply Ascii.eqb_eq in E as ->. right. right. by apply elem_of_list_In.
  - intros [H|[H|H]]; [tauto|tauto|]. right. exists a. split; [by apply elem_of_list_In|]. apply Ascii.eqb_eq. done.
Qed.
Lemma esc_byte_spec a : Forall (fun c => ~ delicate c) (esc_byte a) /\ forall r, pct_decode (esc_byte a ++ r) =
  match pct_decode r with Some x => Some (a :: x) | None => None end.
Proof.
  assert (forallb (fun c => negb (delicateb c)) (esc_byte a) &&
    (if path_unreserved a then negb (Ascii.eqb a "%") else
       bool_decide (hex_val (upper_hex (byte_of a / 16)) = Some (byte_of a / 16)%N) &&
       bool_decide (hex_val (upper_hex (byte_of a mod 16)) = Some (byte_of a mod 16)%N)) = true) as H.
  { revert a. apply byte_all. vm_compute. reflexivity. }
  apply andb_prop in H as [H1 H2]. split.
  - apply Forall_forall. intros c Hc Hd. apply delicateb_spec in Hd. rewrite forallb_forall in H1.
    apply elem_of_list_In in Hc. specialize (H1 _ Hc). by rewrite Hd in H1.
  - intros r. unfold esc_byte in *. destruct (path_unreserved a).
    + cbn [app pct_decode]. destruct (Ascii.eqb a "%"); [done|]. done.
    + apply andb_prop in H2 as [H2 H3]. apply bool_decide_eq_true in H2, H3.
      unfold pct_byte. cbn [app pct_decode]. rewrite H2, H3. change (Ascii.eqb "%" "%") with true. cbn [andb].
      replace (16 * (byte_of a / 16) + byte_of a mod 16)%N with (byte_of a) by (pose proof (N.div_mod (byte_of a) 16); lia).
      unfold byte_of. rewrite ascii_N_embedding. done.
Qed.
Lemma escape_safe s : Forall (fun c => ~ delicate c) (PathEscape s).
Proof.
  unfold PathEscape. induction s as [|a s IH]; [constructor|]. cbn [flat_map]. apply Forall_app. split; [apply esc_byte_spec|done].
Qed.
Lemma plain_byte a : path_unreserved a = bool_decide (a ∈ plain_chars).
Proof. apply eqb_prop. revert a. apply byte_all. vm_compute. reflexivity. Qed.
Lemma escape_plain s : Forall (fun a => a ∈ plain_chars) s -> PathEscape s = s.
Proof.
  unfold PathEscape. induction 1 as [|a s Ha _ IH]; [done|]. cbn [flat_map]. rewrite IH, plain_byte.
  by rewrite bool_decide_eq_true_2.
Qed.
Lemma disposition_plain name t : t <> [] -> name <> [] -> Forall (fun a => a ∈ plain_chars) name ->
  contentDisposition name t = t ++ L "; filename=""" ++ name ++ L """; filename*=UTF-8''" ++ name.
Proof.
  intros Ht Hn Hp. unfold contentDisposition. apply seqb_false in Ht, Hn. rewrite Ht, Hn. by rewrite escape_plain.
Qed.
Lemma escape_decode s : pct_decode (PathEscape s) = Some s.
Proof.
  unfold PathEscape. induction s as [|a s IH]; [done|]. cbn [flat_map].
  destruct (esc_byte_spec a) as [_ H]. unfold esc_byte in H. rewrite H, IH. done.
Qed.
Lemma escape_no s c : delicate c -> c ∉ PathEscape s.
Proof. intros Hc Hin. pose proof (escape_safe s) as H. rewrite Forall_forall in H. by apply (H c). Qed.
Lemma delicate_of c : delicateb c = true -> delicate c.
Proof. apply delicateb_spec. Qed.

(** the value consists of three parts, and the name is in the last two *)
Lemma disposition_parts name t : t <> [] -> ";"%char ∉ t -> name <> [] ->
  exists e, split_byte ";" (contentDisposition name t) =
              [t; L " filename=""" ++ e ++ L """"; L " filename*=UTF-8''" ++ e] /\
    Forall (fun c => ~ delicate c) e /\ pct_decode e = Some name.
Proof.
  intros Ht Hs Hn. exists (PathEscape name). split; [|split; [apply escape_safe|apply escape_decode]].
  unfold contentDisposition. apply seqb_false in Ht, Hn. rewrite Ht, Hn.
  assert (";"%char ∉ PathEscape name) as He by (apply escape_no, delicate_of; reflexivity).
  set (e := PathEscape name) in *. clearbody e.
  change (L "; filename=""") with (";"%char :: L " filename=""").
  cbn [app]. rewrite split_app by done. f_equal.
  change (L """; filename*=UTF-8''") with (""""%char :: ";"%char :: L " filename*=UTF-8''").
  cbn [app]. change (""""%char :: ";"%char :: L " filename*=UTF-8''" ++ e) with (L """" ++ ";"%char :: L " filename*=UTF-8''" ++ e).
  rewrite !app_assoc, split_app.
  - f_equal. apply split_no_sep. intros Hin. apply elem_of_app in Hin as [Hin|Hin]; [|done].
    revert Hin. apply (bool_decide_eq_false _). vm_compute. reflexivity.
  - intros Hin. apply elem_of_app in Hin as [Hin|Hin]; [apply elem_of_app in Hin as [Hin|Hin]; [|done]|];
      revert Hin; apply (bool_decide_eq_false _); vm_compute; reflexivity.
Qed.
Lemma disposition_bytes name t c : c ∈ contentDisposition name t ->
  c ∈ t \/ c ∈ L "attachment; filename=""""; filename*=UTF-8''" \/ ~ delicate c.
Proof.
  unfold contentDisposition. intros H.
  assert (c ∈ (if seqb t [] then L "attachment" else t) -> c ∈ t \/ c ∈ L "attachment; filename=""""; filename*=UTF-8''") as Ht.
  { destruct (seqb t []); [|tauto]. intros Hc. right.
    change (L "attachment; filename=""""; filename*=UTF-8''") with (L "attachment" ++ L "; filename=""""; filename*=UTF-8''").
    apply elem_of_app. by left. }
  assert (c ∈ PathEscape name -> ~ delicate c) as He.
  { intros Hc. pose proof (escape_safe name) as Hs. rewrite Forall_forall in Hs. by apply Hs. }
  destruct (seqb name []); [destruct (Ht H); auto|].
  rewrite !elem_of_app in H. destruct H as [H|[H|[H|[H|H]]]]; auto.
  - destruct (Ht H); auto.
  - right. left. change (L "attachment; filename=""""; filename*=UTF-8''") with
      (L "attachment" ++ L "; filename=""" ++ L """; filename*=UTF-8''").
    rewrite !elem_of_app. auto.
  - right. left. change (L "attachment; filename=""""; filename*=UTF-8''") with
      (L "attachment" ++ L "; filename=""" ++ L """; filename*=UTF-8''").
    rewrite !elem_of_app. auto.
Qed.

(** ** Client address (C38) *)
Lemma split_comma_space_app x s : ","%char ∉ x -> split_str (L ", ") (x ++ L ", " ++ s) = x :: split_str (L ", ") s.
Proof.
  unfold split_str. change (L ", ") with [","; " "]%char. induction x as [|a x IH]; intros H.
  - destruct s; reflexivity.
  - cbn [app split_str_aux has_prefix].
    destruct (Ascii.eqb_spec "," a) as [<-|Hne]; [exfalso; apply H; left|].
    cbn [andb]. change (","%char :: " "%char :: s) with ([","; " "]%char ++ s). rewrite IH by set_solver. done.
Qed.
Lemma split_comma_space_none x : ","%char ∉ x -> split_str (L ", ") x = [x].
Proof.
  unfold split_str. change (L ", ") with [","; " "]%char. induction x as [|a x IH]; intros H; [done|].
  cbn [split_str_aux has_prefix]. destruct (Ascii.eqb_spec "," a) as [<-|Hne]; [exfalso; apply H; left|].
  cbn [andb]. rewrite IH by set_solver. done.
Qed.
Lemma split_comma_space l : l <> [] -> Forall (fun x => ","%char ∉ x) l -> split_str (L ", ") (join (L ", ") l) = l.
Proof.
  intros Hne H. induction H as [|x l Hx Hl IH]; [done|]. destruct l as [|y l].
  - by apply split_comma_space_none.
  - rewrite join_cons by done. rewrite split_comma_space_app by done. f_equal. by apply IH.
Qed.
Lemma split_comma_space_join s : join (L ", ") (split_str (L ", ") s) = s.
Proof.
  assert (forall sep s k, sep = [","; " "]%char -> k <= 1 ->
    join sep (split_str_aux sep k s) = drop k s /\ split_str_aux sep k s <> []) as H.
  2: { destruct (H (L ", ") s 0) as [E _]; [reflexivity|lia|exact E]. }
  clear s. intros sep s k -> Hk. revert k Hk. induction s as [|a s IH]; intros k Hk; [by destruct k as [|[|]]|].
  destruct k as [|k].
  - cbn [split_str_aux]. destruct (has_prefix _ (a :: s)) eqn:E.
    + apply has_prefix_spec in E as [r E]. cbn [app] in E. injection E as -> ->. cbn [length Nat.sub].
      destruct (IH 1) as [H1 H2]; [lia|]. split; [|done]. rewrite join_cons by done. rewrite H1. done.
    + destruct (IH 0) as [H1 H2]; [lia|]. destruct (split_str_aux _ 0 s) as [|y l]; [done|]. split; [|done].
      destruct l as [|z l]; cbn [join drop app] in *; rewrite H1; done.
  - cbn [split_str_aux drop]. apply IH. lia.
Qed.
Lemma proxy_list h l : h_get h (L "X-Forwarded-For") = join (L ", ") l -> join (L ", ") l <> [] ->
  Forall (fun x => ","%char ∉ x) l -> requestProxy h = l.
Proof.
  intros E Hne Hl. unfold requestProxy. rewrite E. assert (l <> []) as Hl0 by (intros ->; done).
  apply seqb_false in Hne as ->. cbn [negb]. by apply split_comma_space.
Qed.
Lemma proxy_join h : join (L ", ") (requestProxy h) = h_get h (L "X-Forwarded-For").
Proof.
  unfold requestProxy. destruct (seqb_spec (h_get h (L "X-Forwarded-For")) []) as [->|H]; [done|].
  cbn [negb]. apply split_comma_space_join.
Qed.
Lemma last_index_app c host port : c ∉ port -> last_index_byte c (host ++ c :: port) = Some (length host).
Proof.
  intros Hp. assert (last_index_byte c port = None) as Hn.
  { induction port as [|a p IH]; [done|]. cbn. rewrite IH by set_solver.
    destruct (Ascii.eqb_spec a c) as [->|]; [exfalso; apply Hp; left|done]. }
  induction host as [|a h IH]; cbn.
  - rewrite Hn. destruct (Ascii.eqb_spec c c); done.
  - by rewrite IH.
Qed.
Lemma last_index_none c s : c ∉ s -> last_index_byte c s = None.
Proof.
  induction s as [|a p IH]; intros Hp; [done|]. cbn. rewrite IH by set_solver.
  destruct (Ascii.eqb_spec a c) as [->|]; [exfalso; apply Hp; left|done].
Qed.
Definition no_port (remote host : gostr) : Prop :=
  (":"%char ∉ remote /\ host = remote) \/ exists port, remote = host ++ ":"%char :: port /\ ":"%char ∉ port.
Lemma realip_header h remote : h_get h (L "X-Real-IP") <> [] -> requestRealIp h remote = h_get h (L "X-Real-IP").
Proof. intros H. unfold requestRealIp. apply seqb_false in H. by rewrite H. Qed.
Lemma realip_proxy h remote x l : h_get h (L "X-Real-IP") = [] -> requestProxy h = x :: l -> x <> [] ->
  requestRealIp h remote = x.
Proof. intros H1 H2 H3. unfold requestRealIp. rewrite H1, H2. apply seqb_false in H3. by rewrite H3. Qed.
Lemma realip_remote h remote host : h_get h (L "X-Real-IP") = [] ->
  (requestProxy h = [] \/ exists l, requestProxy h = [] :: l) -> no_port remote host ->
  requestRealIp h remote = host.
Proof.
  intros H1 H2 H3. unfold requestRealIp. rewrite H1. cbn [seqb].
  assert (match last_index_byte ":" remote with Some i => take i remote | None => remote end = host) as H.
  { destruct H3 as [[H3 ->]|(port & -> & H3)].
    - by rewrite last_index_none.
    - rewrite last_index_app by done. by rewrite take_app. }
  rewrite seqb_refl. destruct H2 as [->|(l & ->)]; [done|]. rewrite seqb_refl. done.
Qed.

(** ** Content types *)
Lemma filterFlags_cut s c r : c = " "%char \/ c = ";"%char -> " "%char ∉ s -> ";"%char ∉ s -> filterFlags (s ++ c :: r) = s.
Proof.
  intros Hc. induction s as [|a s IH]; intros H1 H2.
  - by destruct Hc as [-> | ->].
  - cbn. destruct (Ascii.eqb_spec a " ") as [->|]; [exfalso; apply H1; left|].
    destruct (Ascii.eqb_spec a ";") as [->|]; [exfalso; apply H2; left|]. cbn. f_equal. apply IH; set_solver.
Qed.
Lemma filterFlags_all s : " "%char ∉ s -> ";"%char ∉ s -> filterFlags s = s.
Proof.
  induction s as [|a s IH]; intros H1 H2; [done|]. cbn. destruct (Ascii.eqb_spec a " ") as [->|]; [exfalso; apply H1; left|].
  destruct (Ascii.eqb_spec a ";") as [->|]; [exfalso; apply H2; left|]. cbn. f_equal. apply IH; set_solver.
Qed.

(** ** HTML (C47) *)
Lemma html_byte_reads a h t : a <> "000"%char -> reads_as h t -> reads_as (html_byte a ++ h) (a :: t).
Proof.
  intros H0 H. unfold html_byte.
  destruct (Ascii.eqb_spec a "000"); [done|].
  destruct (Ascii.eqb_spec a """") as [->|]; [apply reads_entity; [|done]; unfold entities; set_solver|].
  destruct (Ascii.eqb_spec a "'") as [->|]; [apply reads_entity; [|done]; unfold entities; set_solver|].
  destruct (Ascii.eqb_spec a "&") as [->|]; [apply reads_entity; [|done]; unfold entities; set_solver|].
  destruct (Ascii.eqb_spec a "<") as [->|]; [apply reads_entity; [|done]; unfold entities; set_solver|].
  destruct (Ascii.eqb_spec a ">") as [->|]; [apply reads_entity; [|done]; unfold entities; set_solver|].
  apply reads_plain; [|done]. set_solver.
Qed.
(** a zero byte is replaced by U+FFFD *)
Definition nul_replaced (s : gostr) : gostr :=
  flat_map (fun a => if Ascii.eqb a "000" then [ascii_of_N 239; ascii_of_N 191; ascii_of_N 189] else [a]) s.
Lemma html_reads s : reads_as (HTMLEscapeString s) (nul_replaced s).
Proof.
  unfold HTMLEscapeString, nul_replaced. induction s as [|a s IH]; [constructor|]. cbn [flat_map].
  destruct (Ascii.eqb_spec a "000") as [->|Hn]; [|by apply html_byte_reads].
  unfold html_byte. cbn [Ascii.eqb Bool.eqb app]. repeat (apply reads_plain; [apply (bool_decide_eq_false _); vm_compute; reflexivity|]). done.
Qed.
Lemma nul_replaced_id s : "000"%char ∉ s -> nul_replaced s = s.
Proof.
  induction s as [|a s IH]; intros H; [done|]. unfold nul_replaced in *. cbn [flat_map].
  destruct (Ascii.eqb_spec a "000") as [->|Hn]; [exfalso; apply H; left|]. cbn. f_equal. apply IH. set_solver.
Qed.
(** such text is inert: no markup, and every ampersand starts an entity *)
Lemma reads_inert h t : reads_as h t ->
  (forall c, c ∈ ["<"; ">"; """"; "'"]%char -> c ∉ h) /\
  forall p q, h = p ++ "&"%char :: q -> exists e c r, (e, c) ∈ entities /\ "&"%char :: q = e ++ r.
Proof.
  induction 1 as [|e c h t He H [IH1 IH2]|c h t Hc H [IH1 IH2]].
  - split; [intros c _; apply not_elem_of_nil|]. intros [|] q E; discriminate.
  - assert (exists b, e = "&"%char :: b /\ "&"%char ∉ b /\ forall x, x ∈ ["<"; ">"; """"; "'"]%char -> x ∉ e) as (b & -> & Hb & Hx).
    { unfold entities in He.
      repeat (apply elem_of_cons in He as [He|He]; [injection He as -> ->; eexists; split; [reflexivity|]; split;
        [apply (bool_decide_eq_false _); vm_compute; reflexivity|
         intros x Hx; repeat (apply elem_of_cons in Hx as [->|Hx]; [apply (bool_decide_eq_false _); vm_compute; reflexivity|]); by apply elem_of_nil in Hx]|]).
      by apply elem_of_nil in He. }
    split.
    + intros x Hin Hh. apply elem_of_app in Hh as [Hh|Hh]; [by apply (Hx x)|by apply (IH1 x)].
    + intros p q E. destruct p as [|y p].
      * exists ("&"%char :: b), c, h. split; [done|]. cbn in E. injection E as <-. done.
      * cbn in E. injection E as <- E.
        assert (exists p', p = b ++ p' /\ h = p' ++ "&"%char :: q) as (p' & -> & Eh).
        { clear -E Hb. revert p E. induction b as [|z b IH]; intros p E; [exists p; split; [done|exact E]|].
          destruct p as [|y p]; [cbn in E; injection E as -> _; exfalso; apply Hb; left|].
          cbn in E. injection E as -> E. destruct (IH ltac:(set_solver) p E) as (p' & -> & ?). by exists p'. }
        by apply (IH2 p').
  - split.
    + intros x Hin Hh. apply elem_of_cons in Hh as [->|Hh]; [|by apply (IH1 x)]. apply Hc.
      rewrite !elem_of_cons in Hin |- *. rewrite elem_of_nil in Hin. rewrite elem_of_list_singleton; tauto.
    + intros p q E. destruct p as [|y p]; cbn in E; injection E as -> E; [exfalso; apply Hc; set_solver|].
      by apply (IH2 p).
Qed.

(** ** Path cleaning (C52) *)
Lemma clean_segs_proper st l : Forall proper st -> Forall (fun x => "/"%char ∉ x) l ->
  Forall proper (clean_segs true st l).
Proof.
  intros Hst Hl. revert st Hst. induction Hl as [|x l Hx Hl IH]; intros st Hst; [done|]. cbn [clean_segs].
  destruct (seqb_spec x []); cbn [orb]; [by apply IH|]. destruct (seqb_spec x (L ".")); [by apply IH|].
  destruct (seqb_spec x (L "..")).
  - destruct st as [|y st]; [by apply IH|]. inversion Hst as [|? ? Hy Hst']; subst.
    destruct (seqb_spec y (L "..")); [exfalso; by destruct Hy as (_ & _ & ? & _)|]. by apply IH.
  - apply IH. constructor; [|done]. by repeat split.
Qed.
Lemma clean_segs_id st l : Forall proper l -> clean_segs true st l = rev l ++ st.
Proof.
  intros H. revert st. induction H as [|x l Hx Hl IH]; intros st; [done|]. cbn [clean_segs rev].
  destruct Hx as (H1 & H2 & H3 & _). apply seqb_false in H1, H2, H3. rewrite H1, H2, H3. cbn [orb].
  rewrite IH, <- app_assoc. done.
Qed.
Lemma walk_clean st l : Forall proper st -> Forall (fun x => "/"%char ∉ x) l -> walk (rev st) l = rev (clean_segs true st l).
Proof.
  intros Hst Hl. revert st Hst. induction Hl as [|x l Hx Hl IH]; intros st Hst; [done|]. cbn [clean_segs walk].
  destruct (seqb_spec x []) as [->|H1]; cbn [orb].
  { rewrite bool_decide_eq_true_2 by tauto. by apply IH. }
  destruct (seqb_spec x (L ".")) as [->|H2].
  { rewrite bool_decide_eq_true_2 by tauto. by apply IH. }
  rewrite bool_decide_eq_false_2 by tauto.
  destruct (seqb_spec x (L "..")) as [->|H3].
  - rewrite bool_decide_eq_true_2 by done. destruct st as [|y st].
    + cbn [rev length Nat.sub take]. by apply (IH []).
    + inversion Hst as [|? ? Hy Hst']; subst.
      destruct (seqb_spec y (L "..")); [exfalso; by destruct Hy as (_ & _ & ? & _)|].
      rewrite <- IH by done. f_equal. cbn [rev]. rewrite app_length. cbn [length].
      replace (length (rev st) + 1 - 1) with (length (rev st)) by lia. apply take_app.
  - rewrite bool_decide_eq_false_2 by done. rewrite <- IH; [|constructor; [by repeat split|done]]. done.
Qed.
(** the path as cleaned *)
Definition rooted (p : gostr) : gostr := match p with "/"%char :: _ => p | _ => "/"%char :: p end.
Lemma cleanPath_segs p : exists l, cleanPath p = "/"%char :: join (L "/") l /\ Forall proper l /\
  l = walk [] (split_byte "/" p).
Proof.
  destruct p as [|c p]; [exists []; split; [done|split; [constructor|done]]|]. unfold cleanPath.
  assert (forall q, exists l, Clean ("/"%char :: q) = "/"%char :: join (L "/") l /\ Forall proper l /\ l = walk [] (split_byte "/" q)) as H.
  { intros q. exists (rev (clean_segs true [] (split_byte "/" q))). split; [|split].
    - unfold Clean. change (Ascii.eqb "/" "/") with true. cbn [split_byte]. change (Ascii.eqb "/" "/") with true.
      cbn [clean_segs]. rewrite seqb_refl. done.
    - apply Forall_rev. apply clean_segs_proper; [constructor|apply split_byte_no_sep].
    - symmetry. apply (walk_clean []); [constructor|apply split_byte_no_sep]. }
  destruct (Ascii.eqb_spec c "/") as [->|Hc].
  - destruct (H p) as (l & H1 & H2 & H3). exists l. split; [done|]. split; [done|]. rewrite H3. cbn [split_byte].
    change (Ascii.eqb "/" "/") with true. cbn [walk]. rewrite bool_decide_eq_true_2 by tauto. done.
  - apply H.
Qed.
Lemma split_join_proper l : Forall proper l -> l <> [] -> split_byte "/" (join (L "/") l) = l.
Proof.
  intros H Hne. change (L "/") with ["/"%char]. apply split_join; [done|].
  eapply Forall_impl; [exact H|]. by intros x (_ & _ & _ & ?).
Qed.
Lemma cleanPath_fix l : Forall proper l -> cleanPath ("/"%char :: join (L "/") l) = "/"%char :: join (L "/") l.
Proof.
  intros H. unfold cleanPath. change (Ascii.eqb "/" "/") with true. cbn iota. unfold Clean. change (Ascii.eqb "/" "/") with true.
  f_equal. f_equal. cbn [split_byte]. change (Ascii.eqb "/" "/") with true. cbn [clean_segs]. rewrite seqb_refl. cbn [orb].
  destruct l as [|x l]; [done|]. rewrite split_join_proper by done.
  rewrite clean_segs_id by done. rewrite app_nil_r. apply rev_involutive.
Qed.
Lemma cleanPath_idem p : cleanPath (cleanPath p) = cleanPath p.
Proof. destruct (cleanPath_segs p) as (l & -> & H & _). by apply cleanPath_fix. Qed.
Lemma walk_proper l : forall d, Forall proper l -> walk d l = d ++ l.
Proof.
  induction l as [|x l IH]; intros d H; [by rewrite app_nil_r|]. inversion H as [|? ? (H1 & H2 & H3 & _) Hl]; subst. cbn [walk].
  rewrite bool_decide_eq_false_2 by tauto. rewrite bool_decide_eq_false_2 by done. rewrite IH, <- app_assoc by done. done.
Qed.
Lemma cleanPath_walk p : walk [] (split_byte "/" (cleanPath p)) = walk [] (split_byte "/" p).
Proof.
  destruct (cleanPath_segs p) as (l & -> & H & E). rewrite <- E. cbn [split_byte]. change (Ascii.eqb "/" "/") with true.
  cbn [walk]. rewrite bool_decide_eq_true_2 by tauto. destruct l as [|x l].
  - done.
  - rewrite split_join_proper by done. by rewrite walk_proper.
Qed.
