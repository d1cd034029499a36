(** What serving static files should be. *)
From Verif Require Import Base GoStr Pattern Tree TreeSpec Header Router Ctx TraceSpec UtilSpec Engine EngineSpec Util Content PathClean Static.

(** a path segment that stands for itself in a route and in a file name *)
Definition literal_seg (s : gostr) : Prop :=
  proper s /\ "<"%char ∉ s /\ ">"%char ∉ s /\ (forall r, s <> "*"%char :: r) /\ trim_space s = s.

(** the path made of these segments *)
Definition slashed (l : list gostr) : gostr := "/"%char :: join (L "/") l.

(** the path of the file with segments l below the directory with path d (both in
    normal form) *)
Definition below (d : gostr) (l : list gostr) : gostr :=
  match l with
  | [] => d
  | _ => if decide (d = L ".") then join (L "/") l
         else if decide (d = L "/") then slashed l
         else d ++ slashed l
  end.

(** headers set (Some) and deleted (None) one after the other *)
Definition put_headers (hs : list (gostr * option gostr)) (h : header) : header :=
  fold_left (fun h kv => match kv with (k, Some v) => h_set h k v | (k, None) => h_del h k end) hs h.

(** the tag of a file, of the kind that was chosen *)
Definition file_tag (kind : nat) (mtime size : Z) (base : gostr) : gostr :=
  if (kind =? 1)%nat then GenerateETag mtime size else GenerateETag2 mtime size base.

(** ** What a request for a file gets *)
Section Reply.
Context {F O : Type}.
Variable location : request -> gostr -> gostr.
Variable page : request -> gostr -> Z -> gostr.
Variable serve : request -> gostr -> gostr -> gostr -> F -> list (gostr * option gostr) * Z * list gostr.
Variable serve_file : request -> gostr -> gostr -> gostr -> gostr -> O -> list (gostr * option gostr) * Z * list gostr.

Definition expiring (o : static_opts) : header :=
  match so_expires o with Some v => {[ L "Expires" := [v] ]} | None => ∅ end.
Definition announced (o : static_opts) (mtime size : Z) (base : gostr) : header :=
  if decide (so_etag o = 0%nat) then expiring o else <[ L "Etag" := [file_tag (so_etag o) mtime size base] ]> (expiring o).
(** a reply of net/http, given the headers set before *)
Definition completed (h : header) (a : list (gostr * option gostr) * Z * list gostr) : Z * header * gostr :=
  let '(hs, n, out) := a in (n, put_headers hs h, if bears_body n then concat out else []).

Inductive static_reply (o : static_opts) (en : entry F) (os : O) (name : gostr) (r : request) : Z * header * gostr -> Prop :=
  | sr_missing : en = Absent \/ en = NoStat -> static_reply o en os name r (404%Z, ∅, [])
  | sr_unchanged mtime size base f : en = Regular mtime size base f -> so_etag o <> 0%nat ->
      h_get (rq_header r) (L "If-None-Match") = file_tag (so_etag o) mtime size base ->
      static_reply o en os name r (304%Z, announced o mtime size base, [])
  | sr_content mtime size base f : en = Regular mtime size base f ->
      (so_etag o <> 0%nat -> h_get (rq_header r) (L "If-None-Match") <> file_tag (so_etag o) mtime size base) ->
      static_reply o en os name r
        (completed (announced o mtime size base)
           (serve r [] (h_get (announced o mtime size base) (L "Etag")) [] f))
  | sr_redirect : en = Folder -> has_suffix (L "/") (rq_path r) = false -> Clean (rq_path r) <> L "/" ->
      let loc := location r (Clean (rq_path r) ++ L "/") in
      static_reply o en os name r
        (302%Z, <[ L "Content-Type" := [L "text/html; charset=utf-8"] ]> (<[ L "Location" := [loc] ]> (expiring o)),
         if decide (rq_method r = L "GET") then page r (Clean (rq_path r) ++ L "/") 302 else [])
  | sr_index : en = Folder -> has_suffix (L "/") (rq_path r) = true \/ Clean (rq_path r) = L "/" ->
      static_reply o en os name r
        (completed (expiring o) (serve_file r [] [] [] (filepath_Join [name; so_index o]) os)).
End Reply.

(** the request is for the file with this name of a static route with prefix pre *)
Definition file_name (pre : list gostr) (r : request) (name : gostr) : Prop :=
  exists rest, rest <> [] /\ path_segs (rq_path r) = pre ++ rest /\ name = join (L "/") rest.

(** the request is for v and for no other route *)
Definition sole_route {A} re_ok re_find (e : engine A) (v : route A) (r : request) : Prop :=
  v ∈ routes e /\ fits re_ok re_find v r /\
  forall u, u ∈ routes e -> fits re_ok re_find u r \/ verbatim re_ok e u r -> u = v.

(** ** Reading a Location: the path is what precedes ? and #, with percent escapes *)
Fixpoint url_path_text (s : gostr) : gostr :=
  match s with
  | [] => []
  | a :: s' => if Ascii.eqb a "?" || Ascii.eqb a "#" then [] else a :: url_path_text s'
  end.
Definition url_path (s : gostr) : option gostr := pct_decode (url_path_text s).
