(** What a request gets from a handler that sends a file with a given name: stated
    on the text of paths and names. *)
From Verif Require Import Base GoStr PathClean Header Router Ctx StaticSpec NetFile.
Local Open Scope Z_scope.

(** two dots between slashes (of either kind) or the ends of the path *)
Definition slashy (a : ascii) : Prop := a = "/"%char \/ a = "\"%char.
Definition dotted (p : gostr) : Prop :=
  exists a b, p = a ++ L ".." ++ b /\ (a = [] \/ exists a' s, a = a' ++ [s] /\ slashy s) /\ (b = [] \/ exists s b', b = s :: b' /\ slashy s).
Definition ends_in (p s : gostr) : Prop := exists t, p = t ++ s.

(** the last element of a name, after the last slash *)
Definition last_element (name dir file : gostr) : Prop :=
  name = dir ++ file /\ "/"%char ∉ file /\ (dir = [] \/ ends_in dir (L "/")).
(** the path that is opened for a name: the cleaned name.  Only a last element ..
    counts for nothing. *)
Definition opened (name p : gostr) : Prop :=
  exists dir file, last_element name dir file /\ p = Clean (if decide (file = L "..") then dir else name).

(** the text of an error page, and a relative redirect *)
Definition error_page (why : failure) : gostr * Z :=
  match why with
  | Missing => (L "404 page not found", 404)
  | Forbidden => (L "403 Forbidden", 403)
  | Broken => (L "500 Internal Server Error", 500)
  end.
Definition plain_text (text : gostr) (n : Z) : list (gostr * option gostr) * Z * list gostr :=
  ([(L "Content-Type", Some (L "text/plain; charset=utf-8")); (L "X-Content-Type-Options", Some (L "nosniff"))],
   n, [text ++ [ascii_of_nat 10]]).
Definition moved (to query : gostr) : list (gostr * option gostr) * Z * list gostr :=
  ([(L "Location", Some (to ++ if decide (query = []) then [] else "?"%char :: query))], 301, []).

Section Answer.
Context {F D : Type}.
Variable raw_query : request -> gostr.
Variable serve : request -> gostr -> gostr -> gostr -> F -> list (gostr * option gostr) * Z * list gostr.
Variable listing : request -> D -> list (gostr * option gostr) * Z * list gostr.

(** the path is not one of those that http.ServeFile treats specially *)
Definition usual (r : request) : Prop := ~ dotted (rq_path r) /\ ~ ends_in (rq_path r) (L "/index.html").

Inductive file_answer (r : request) (t etag enc name : gostr) (os : gostr -> node F D) : list (gostr * option gostr) * Z * list gostr -> Prop :=
  | fa_dots : dotted (rq_path r) -> file_answer r t etag enc name os (plain_text (L "invalid URL path") 400)
  | fa_index : ~ dotted (rq_path r) -> ends_in (rq_path r) (L "/index.html") ->
      file_answer r t etag enc name os (moved (L "./") (raw_query r))
  | fa_failed p why : usual r -> opened name p -> os p = Failed why ->
      file_answer r t etag enc name os (plain_text (fst (error_page why)) (snd (error_page why)))
  | fa_file p f : usual r -> opened name p -> os p = Plain f -> file_answer r t etag enc name os (serve r t etag enc f)
  | fa_moved p d dir file : usual r -> opened name p -> os p = Directory d ->
      last_element (rq_path r) dir file -> file <> [] ->
      file_answer r t etag enc name os (moved (file ++ L "/") (raw_query r))
  | fa_empty p d : usual r -> opened name p -> os p = Directory d -> rq_path r = [] ->
      file_answer r t etag enc name os (moved (L "./") (raw_query r))
  | fa_index_file p d f : usual r -> opened name p -> os p = Directory d -> ends_in (rq_path r) (L "/") ->
      os (below p [L "index.html"]) = Plain f -> file_answer r t etag enc name os (serve r t etag enc f)
  | fa_list p d why : usual r -> opened name p -> os p = Directory d -> ends_in (rq_path r) (L "/") ->
      os (below p [L "index.html"]) = Failed why -> file_answer r t etag enc name os (listing r d)
  | fa_list_index p d d' : usual r -> opened name p -> os p = Directory d -> ends_in (rq_path r) (L "/") ->
      os (below p [L "index.html"]) = Directory d' -> file_answer r t etag enc name os (listing r d').
End Answer.
