(** The text of a cookie as a user agent reads it. *)
From Verif Require Import Base GoStr GoStrFacts Strconv StrconvFacts Tree Header Router Ctx Util Getters UtilSpec RequestSpec RequestFacts.
From Verif Require Import NetCookie CookieSpec CookieFacts CookieDomain.
Local Open Scope Z_scope.

(** the attributes as they are written, each after a semicolon *)
Definition attr_texts (c : cookie) : list gostr :=
  (if (0 <? length (ck_path c))%nat then [L " Path=" ++ sanitizeCookiePath (ck_path c)] else []) ++
  (if (0 <? length (ck_domain c))%nat then
     if validCookieDomain (ck_domain c) then [L " Domain=" ++ trim_prefix (L ".") (ck_domain c)] else []
   else []) ++
  (if 0 <? ck_maxage c then [L " Max-Age=" ++ itoa (ck_maxage c)]
   else if ck_maxage c <? 0 then [L " Max-Age=0"] else []) ++
  (if ck_httponly c then [L " HttpOnly"] else []) ++
  (if ck_secure c then [L " Secure"] else []) ++
  (if ck_samesite c =? 4 then [L " SameSite=None"]
   else if ck_samesite c =? 2 then [L " SameSite=Lax"]
   else if ck_samesite c =? 3 then [L " SameSite=Strict"] else []).
Lemma string_texts c : cookie_name (ck_name c) ->
  cookie_String c = (ck_name c ++ L "=" ++ sanitizeCookieValue (ck_value c)) ++ concat (map (cons ";"%char) (attr_texts c)).
Proof.
  intros Hn. unfold cookie_String. rewrite (proj2 (name_valid _) Hn). cbn [negb]. rewrite <- !app_assoc. unfold attr_texts.
  rewrite !map_app, !concat_app.
  repeat f_equal.
  - destruct (0 <? _)%nat; [|done]. cbn [map concat]. by rewrite app_nil_r.
  - destruct (0 <? _)%nat; [|done]. destruct (validCookieDomain _); [|done]. cbn [map concat]. by rewrite app_nil_r.
  - destruct (0 <? _); [cbn [map concat]; by rewrite app_nil_r|]. by destruct (_ <? 0).
  - by destruct (ck_httponly c).
  - by destruct (ck_secure c).
  - destruct (_ =? 4); [done|]. destruct (_ =? 2); [done|]. by destruct (_ =? 3).
Qed.
Lemma attr_read (n v : gostr) : "="%char ∉ n -> ua_attr (" "%char :: n ++ "="%char :: v) = (strip n, strip v).
Proof.
  intros H. unfold ua_attr. rewrite app_comm_cons, cut_at_app; [done|]. rewrite not_elem_of_cons. done.
Qed.
Lemma path_texts c l : l = (if (0 <? length (ck_path c))%nat then [L " Path=" ++ sanitizeCookiePath (ck_path c)] else []) ->
  path_attr (ck_path c) (map ua_attr l) /\ Forall (Forall path_char) l.
Proof.
  intros ->. unfold path_attr. destruct (ck_path c) as [|a p] eqn:E.
  { cbn. split; [by left|constructor]. }
  rewrite <- E. assert ((0 <? length (ck_path c))%nat = true) as -> by (rewrite E; done). split.
  - right. split; [by rewrite E|]. exists (sanitizeCookiePath (ck_path c)). split.
    + unfold sanitizeCookiePath. rewrite sanitize_filter. apply filter_kept, valid_path.
    + cbn [map]. change (L " Path=" ++ ?x) with (" "%char :: L "Path" ++ "="%char :: x).
      rewrite attr_read; [done|]. apply contains_byte_false. reflexivity.
  - constructor; [|constructor]. rewrite Forall_app. split.
    + apply Forall_forall. intros x Hx. apply valid_path. revert x Hx. apply (Forall_forall (fun x => validCookiePathByte x = true)).
      apply Forall_forall. intros x Hx. apply elem_of_list_In in Hx.
      assert (forallb validCookiePathByte (L " Path=") = true) as Hf by reflexivity. rewrite forallb_forall in Hf. by apply Hf.
    + unfold sanitizeCookiePath. rewrite sanitize_filter. eapply kept_P. apply (filter_kept _ _ _ valid_path).
Qed.
Lemma literal_path s : forallb validCookiePathByte s = true -> Forall path_char s.
Proof. intros H. rewrite forallb_forall in H. apply Forall_forall. intros x Hx. apply valid_path, H. by apply elem_of_list_In. Qed.
Lemma range_path a : (33 <= N_of_ascii a < 127)%N -> a <> ";"%char -> path_char a.
Proof. unfold path_char. intros H1 H2. split; [lia|done]. Qed.
Lemma class_path a : letter a \/ cipher a \/ a = "-"%char \/ a = "."%char -> path_char a.
Proof.
  unfold letter, cipher. intros H. split.
  - destruct H as [H|[H|[->| ->]]]; [lia|lia|vm_compute; intuition congruence..].
  - intros ->. vm_compute in H. intuition congruence.
Qed.
Lemma class_solid a : letter a \/ cipher a \/ a = "-"%char \/ a = "."%char -> blank a = false.
Proof.
  unfold letter, cipher, blank. intros H. apply bool_decide_eq_false. intros [->| ->]; vm_compute in H; intuition congruence.
Qed.
Lemma domain_chars d a : good_domain d -> a ∈ without_dot d -> letter a \/ cipher a \/ a = "-"%char \/ a = "."%char.
Proof.
  intros [[_ H]|H] Ha; [by apply (host_chars _ _ H)|]. assert (a ∈ d) as Ha'.
  { destruct d as [|b d]; [done|]. cbn in Ha. destruct (decide _); [by right|done]. }
  apply (quad_chars _ _ H) in Ha'. tauto.
Qed.
Lemma domain_texts c l : l = (if (0 <? length (ck_domain c))%nat then
     if validCookieDomain (ck_domain c) then [L " Domain=" ++ trim_prefix (L ".") (ck_domain c)] else [] else []) ->
  domain_attr (ck_domain c) (map ua_attr l) /\ Forall (Forall path_char) l.
Proof.
  intros ->. unfold domain_attr. destruct (validCookieDomain (ck_domain c)) eqn:E.
  - assert ((0 <? length (ck_domain c))%nat = true) as ->. { destruct (ck_domain c); [by vm_compute in E|done]. }
    apply domain_spec in E. rewrite without_dot_trim. split.
    + left. split; [done|]. cbn [map]. change (L " Domain=" ++ ?x) with (" "%char :: L "Domain" ++ "="%char :: x).
      rewrite attr_read; [|apply contains_byte_false; reflexivity]. rewrite (strip_solid (without_dot _)); [done|].
      apply Forall_forall. intros a Ha. apply class_solid. by eapply domain_chars.
    + constructor; [|constructor]. rewrite Forall_app. split; [by apply literal_path|].
      apply Forall_forall. intros a Ha. apply class_path. by eapply domain_chars.
  - assert (forall b : bool, (if b then [] else []) = @nil gostr) as -> by (by intros []). split; [|constructor]. right. split; [|done].
    intros H. apply domain_spec in H. congruence.
Qed.
Lemma age_texts c l : l = (if 0 <? ck_maxage c then [L " Max-Age=" ++ itoa (ck_maxage c)] else if ck_maxage c <? 0 then [L " Max-Age=0"] else []) ->
  age_attr (ck_maxage c) (map ua_attr l) /\ Forall (Forall path_char) l.
Proof.
  intros ->. unfold age_attr. destruct (Z.ltb_spec 0 (ck_maxage c)).
  - assert (udecimal (itoa (ck_maxage c)) (ck_maxage c)) as Hu by (apply itoa_udecimal; lia).
    assert (forall a, a ∈ itoa (ck_maxage c) -> cipher a) as Hd.
    { destruct Hu as (_ & Hu & _). rewrite Forall_forall in Hu. exact Hu. }
    split.
    + right. right. split; [done|]. exists (itoa (ck_maxage c)). split; [done|].
      cbn [map]. change (L " Max-Age=" ++ ?x) with (" "%char :: L "Max-Age" ++ "="%char :: x).
      rewrite attr_read; [|apply contains_byte_false; reflexivity]. rewrite (strip_solid (itoa _)); [done|].
      apply Forall_forall. intros a Ha. apply class_solid. right. left. by apply Hd.
    + constructor; [|constructor]. rewrite Forall_app. split; [by apply literal_path|].
      apply Forall_forall. intros a Ha. apply class_path. right. left. by apply Hd.
  - destruct (Z.ltb_spec (ck_maxage c) 0).
    + split; [right; left; split; [done|reflexivity]|]. constructor; [by apply literal_path|constructor].
    + split; [left; split; [lia|done]|constructor].
Qed.
Lemma site_texts c l : l = (if ck_samesite c =? 4 then [L " SameSite=None"] else if ck_samesite c =? 2 then [L " SameSite=Lax"]
   else if ck_samesite c =? 3 then [L " SameSite=Strict"] else []) ->
  site_attr (ck_samesite c) (map ua_attr l) /\ Forall (Forall path_char) l.
Proof.
  intros ->. unfold site_attr. destruct (Z.eqb_spec (ck_samesite c) 4) as [E|E].
  { split; [right; right; left; split; [done|reflexivity]|]. constructor; [by apply literal_path|constructor]. }
  destruct (Z.eqb_spec (ck_samesite c) 2) as [E2|E2].
  { split; [left; split; [done|reflexivity]|]. constructor; [by apply literal_path|constructor]. }
  destruct (Z.eqb_spec (ck_samesite c) 3) as [E3|E3].
  { split; [right; left; split; [done|reflexivity]|]. constructor; [by apply literal_path|constructor]. }
  split; [|constructor]. right. right. right. done.
Qed.
Lemma texts_asked c : asked c (map ua_attr (attr_texts c)) /\ Forall (Forall path_char) (attr_texts c).
Proof.
  unfold attr_texts, asked. rewrite !map_app, !Forall_app.
  destruct (path_texts c _ eq_refl) as [P1 P2], (domain_texts c _ eq_refl) as [D1 D2], (age_texts c _ eq_refl) as [A1 A2], (site_texts c _ eq_refl) as [S1 S2].
  split.
  - eexists _, _, _, _. split; [exact P1|]. split; [exact D1|]. split; [exact A1|]. split; [exact S1|].
    do 3 f_equal. f_equal; [by destruct (ck_httponly c)|]. f_equal. by destruct (ck_secure c).
  - assert (forall (b : bool) x, forallb validCookiePathByte x = true -> Forall (Forall path_char) (if b then [x] else [])) as Hb.
    { intros [] x Hx; constructor; [by apply literal_path|constructor]. }
    split; [done|]. split; [done|]. split; [done|]. split; [by apply Hb|]. split; [by apply Hb|done].
Qed.
(** what a user agent reads *)
Lemma ua_reads c w : cookie_name (ck_name c) -> kept carried (ck_value c) w ->
  ua_read (cookie_String c) = Some (ck_name c, written w, map ua_attr (attr_texts c)).
Proof.
  intros Hn Hw. rewrite string_texts by done. rewrite (sanitize_value _ w) by done. destruct Hn as [Hn1 Hn2].
  pose proof (kept_P _ _ _ Hw) as Hc. unfold ua_read. rewrite pieces_rest.
  - change (L "=" ++ ?x) with ("="%char :: x). rewrite cut_at_app by (by apply token_no).
    rewrite (strip_solid (ck_name c)) by (by apply token_solid). rewrite decide_False by done. by rewrite written_strip.
  - pose proof (proj2 (texts_asked c)) as H. eapply Forall_impl; [exact H|]. cbn beta. intros x Hx Hin. rewrite Forall_forall in Hx.
    by apply Hx in Hin as [_ Hin].
  - change (L "=") with ["="%char]. rewrite !not_elem_of_app, elem_of_list_singleton. split; [by apply token_no|]. split; [done|by apply written_semi].
Qed.
Lemma string_invalid c : ~ cookie_name (ck_name c) -> cookie_String c = [].
Proof.
  intros H. unfold cookie_String. destruct (isCookieNameValid (ck_name c)) eqn:E; [|done]. by apply name_valid in E.
Qed.
(** its bytes *)
Lemma string_print c a : a ∈ cookie_String c -> (32 <= N_of_ascii a < 127)%N.
Proof.
  destruct (decide (isCookieNameValid (ck_name c) = true)) as [E|E].
  2: { rewrite string_invalid; [intros H; by apply elem_of_nil in H|]. intros H. by apply E, name_valid. }
  apply name_valid in E. rewrite string_texts by done. rewrite !elem_of_app. intros [[H|[H|H]]|H].
  - destruct E as [_ E]. pose proof (token_print _ E) as Ht. rewrite Forall_forall in Ht. by apply Ht.
  - change (L "=") with ["="%char] in H. apply elem_of_list_singleton in H as ->. apply eq_solid.
  - pose proof (filter_kept _ _ (ck_value c) valid_carried) as Hk. rewrite (sanitize_value _ _ Hk) in H. eapply written_print; [|exact H].
    by eapply kept_P.
  - apply elem_of_list_In, in_concat in H as (x & Hx & Ha). apply in_map_iff in Hx as (y & <- & Hy). apply elem_of_list_In in Hy, Ha.
    apply elem_of_cons in Ha as [->|Ha]; [vm_compute; intuition congruence|].
    pose proof (proj2 (texts_asked c)) as H. rewrite Forall_forall in H. apply H in Hy. rewrite Forall_forall in Hy. by apply Hy in Ha as [Ha _].
Qed.
