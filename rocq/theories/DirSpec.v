(** How clients read listings of directories. *)
From Coq Require Import Sorted.
From Verif Require Import Base GoStr Header Ctx UtilSpec ListingSpec CondSpec StaticSpec NetFile FileSpec NetDir.

Definition newline : gostr := ["010"%char].
(** Links below each other: an address ends at the first quotation mark, a text at the
    first mark-up. *)
Inductive anchors : gostr -> list (gostr * gostr) -> Prop :=
  | an_nil : anchors [] []
  | an_cons h t s l : """"%char ∉ h -> "<"%char ∉ t -> anchors s l ->
      anchors (L "<a href=""" ++ h ++ L """>" ++ t ++ L "</a>" ++ newline ++ s) ((h, t) :: l).
(** a page with these links and nothing else *)
Definition page (b : gostr) (l : list (gostr * gostr)) : Prop :=
  exists s, b = L "<pre>" ++ newline ++ s ++ L "</pre>" ++ newline /\ anchors s l.

(** What a relative reference leads to from a page at base, a path that ends in a slash
    (RFC 3986, 4.2 and 5.2): it has no scheme, authority, query or fragment; one
    dot segment at the start goes for nothing, further ones are not considered. *)
Definition leads (base ref path : gostr) : Prop :=
  exists u v, (ref = u \/ ref = L "./" ++ u) /\
    "?"%char ∉ ref /\ "#"%char ∉ ref /\ head ref <> Some "/"%char /\
    (forall a b, ref = a ++ L ":" ++ b -> "/"%char ∈ a) /\
    L "." ∉ split_byte "/" u /\ L ".." ∉ split_byte "/" u /\
    pct_decode u = Some v /\ path = base ++ v.

(** The value of an attribute in HTML: as in texts, but an ampersand stands for itself if
    neither a letter nor a digit nor a number sign follows, since then it begins no
    character reference.  (Of the references, only those of UtilSpec.v are considered.) *)
Definition letter_or_digit (c : ascii) : Prop :=
  (48 <= N_of_ascii c <= 57)%N \/ (65 <= N_of_ascii c <= 90)%N \/ (97 <= N_of_ascii c <= 122)%N.
Inductive attr_reads : gostr -> gostr -> Prop :=
  | ar_nil : attr_reads [] []
  | ar_entity e c h t : (e, c) ∈ entities -> attr_reads h t -> attr_reads (e ++ h) (c :: t)
  | ar_amp h t : (forall c, head h = Some c -> ~ letter_or_digit c /\ c <> "#"%char) -> attr_reads h t -> attr_reads ("&"%char :: h) ("&"%char :: t)
  | ar_plain c h t : c ∉ ["<"; ">"; "&"; """"; "'"]%char -> attr_reads h t -> attr_reads (c :: h) (c :: t).
(** names in which no & stands before a letter or digit *)
Definition amp_apart (n : gostr) : Prop := forall a c b, n = a ++ "&"%char :: c :: b -> ~ letter_or_digit c.

(** how an entry is shown *)
Definition shown (e : entry) : gostr := en_name e ++ if en_dir e then L "/" else [].
(** the names that files have *)
Definition file_like (n : gostr) : Prop := n <> [] /\ "/"%char ∉ n /\ n <> L "." /\ n <> L "..".
(** a link for the entry, on a page at base; [ok]: names whose addresses are right *)
Definition links (ok : gostr -> Prop) (base : gostr) (a : gostr * gostr) (e : entry) : Prop :=
  reads_as (snd a) (shown e) /\
  (file_like (en_name e) -> ok (en_name e) -> exists ref, attr_reads (fst a) ref /\ leads base ref (base ++ shown e)).

(** The directory that http.ServeFile lists for the path p: the one there, if its
    index.html cannot be opened, or else a directory with the name index.html in it *)
Definition shows {F} (os : gostr -> node F dir) (p : gostr) (d : dir) : Prop :=
  (os p = Directory d /\ exists why, os (below p [L "index.html"]) = Failed why) \/
  (exists d0, os p = Directory d0 /\ os (below p [L "index.html"]) = Directory d).

Section Reply.
Variable parse_time : gostr -> option Z.
Variable http_date : Z -> gostr.
(** who asks has the listing already *)
Definition has_listing (r : request) (d : dir) : Prop :=
  (rq_method r = L "GET" \/ rq_method r = L "HEAD") /\
  unchanged_since parse_time (di_time d) (h_get (rq_header r) (L "If-Modified-Since")).
(** status, headers and body of the reply for a directory *)
Inductive dir_reply (ok : gostr -> Prop) (r : request) (d : dir) : Z -> header -> gostr -> Prop :=
  | dr_same hd : has_listing r d -> h_values hd (L "Content-Type") = [] -> dir_reply ok r d 304 hd []
  | dr_broken hd : ~ has_listing r d -> di_entries d = None ->
      h_values hd (L "Content-Type") = [L "text/plain; charset=utf-8"] ->
      dir_reply ok r d 500 hd (L "Error reading directory" ++ newline)
  | dr_page hd entries es b l : ~ has_listing r d -> di_entries d = Some entries ->
      h_values hd (L "Content-Type") = [L "text/html; charset=utf-8"] ->
      (forall m, di_time d = Some m -> h_values hd (L "Last-Modified") = [http_date m]) ->
      page b l -> Forall2 (links ok (rq_path r)) l es ->
      es ≡ₚ entries -> (NoDup (map en_name entries) -> StronglySorted bytes_lt (map en_name es)) ->
      dir_reply ok r d 200 hd b.
End Reply.
