(** What a redirect is to lead to: URL references (RFC 3986, sections 3 to 5), read
    independently of net/url. *)
From Coq Require Import ZArith NArith.
From Verif Require Import Base GoStr Tree Header Router Ctx UtilSpec StaticSpec.

(** ** URL references *)
Definition ascii_only (s : gostr) : Prop := Forall (fun a => (N_of_ascii a < 128)%N) s.
Definition no_control (s : gostr) : Prop := Forall (fun a => (32 <= N_of_ascii a)%N /\ N_of_ascii a <> 127%N) s.
(** a reference without scheme and authority: path, query, fragment *)
Definition lead (c : ascii) (o : option gostr) : gostr := match o with Some s => c :: s | None => [] end.
Definition reference (p : gostr) (q f : option gostr) : gostr := p ++ lead "?" q ++ lead "#" f.
Record relative_ref (p : gostr) (q f : option gostr) : Prop := {
  rel_path : "?"%char ∉ p /\ "#"%char ∉ p;
  rel_query : "#"%char ∉ lead "?" q;
  rel_visible : no_control p /\ no_control (lead "?" q);
  rel_escapes : pct_decode p <> None /\ pct_decode (lead "#" f) <> None;
  rel_host : (forall t, p <> L "//" ++ t) \/ exists t, p = L "///" ++ t;
  rel_scheme : forall a b, p = a ++ ":"%char :: b -> "/"%char ∈ a }.
(** a reference with a scheme, or with a host *)
Definition letter (a : ascii) : Prop := (97 <= N_of_ascii a <= 122 \/ 65 <= N_of_ascii a <= 90)%N.
Definition scheme_byte (a : ascii) : Prop := letter a \/ is_digit a \/ a ∈ ["+"; "-"; "."]%char.
Definition scheme (s : gostr) : Prop := exists a t, s = a :: t /\ letter a /\ Forall scheme_byte t.
Definition elsewhere (uri : gostr) : Prop :=
  (exists s rest, scheme s /\ uri = s ++ ":"%char :: rest) \/
  (exists h rest, h <> [] /\ Forall (fun a => a ∉ ["/"; "?"; "#"; "@"]%char) h /\ uri = L "//" ++ h ++ rest /\
     match rest with [] => True | a :: _ => a ∈ ["/"; "?"; "#"]%char end).

(** ** Resolving a path (section 5.2.3), from the page with path base *)
Inductive resolved (base : gostr) : gostr -> gostr -> Prop :=
  | res_absolute t : resolved base ("/"%char :: t) ("/"%char :: t)
  | res_merge d z p : base = d ++ "/"%char :: z -> "/"%char ∉ z -> (forall t, p <> "/"%char :: t) -> resolved base p (d ++ "/"%char :: p).
(** Removing the dot segments (section 5.2.4), from the segments after the first
    slash *)
Fixpoint remove_dots (out : list gostr) (segs : list gostr) : list gostr :=
  match segs with
  | [] => out
  | x :: rest =>
      if bool_decide (x = L ".") then match rest with [] => out ++ [[]] | _ => remove_dots out rest end
      else if bool_decide (x = L "..") then
        let out := take (length out - 1) out in match rest with [] => out ++ [[]] | _ => remove_dots out rest end
      else remove_dots (out ++ [x]) rest
  end.
(** The path without dot segments and empty segments, a final slash kept *)
Definition cleaned (path : gostr) : gostr :=
  let l := walk [] (split_byte "/" path) in
  slashed l ++ (if bool_decide (last path = Some "/"%char /\ l <> []) then L "/" else []).

(** ** Where a redirect leads, from the page with path base *)
Inductive leads (base : gostr) : gostr -> gostr -> Prop :=
  | leads_elsewhere uri : elsewhere uri -> leads base uri uri
  | leads_local p q full : relative_ref p q None -> resolved base p full -> head full = Some "/"%char -> "?"%char ∉ full ->
      leads base (reference p q None) (cleaned full ++ lead "?" q).

(** ** Locations *)
(** loc writes target in ASCII *)
Definition writes (target loc : gostr) : Prop :=
  ascii_only loc /\ pct_decode loc = pct_decode target /\ (ascii_only target -> loc = target).
(** a path on the same host, and not the reference to another one *)
Definition same_host (loc : gostr) : Prop := exists t, loc = "/"%char :: t /\ forall t', t <> "/"%char :: t'.
(** what a browser reads (WHATWG URL, section 4.4: tabs and newlines are removed) *)
Definition browser_reads (loc : gostr) : gostr :=
  List.filter (fun a => negb (existsb (Ascii.eqb a) [ascii_of_nat 9; ascii_of_nat 10; ascii_of_nat 13])) loc.

(** The page of a redirect: a link to the target, with the name of the status *)
Definition link_page (target : gostr) (text page : gostr) : Prop :=
  exists e, reads_as e target /\
    page = L "<a href=""" ++ e ++ L """>" ++ text ++ L "</a>." ++ [ascii_of_nat 10; ascii_of_nat 10].
