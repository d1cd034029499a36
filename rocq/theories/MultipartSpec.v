(** Specification of multipart forms: how a client writes fields and files as the body
    of a request (RFC 2046, RFC 2183, RFC 7578), and what has to arrive.  Of NetMultipart it
    uses the record of an uploaded file only. *)
From Coq Require Import ZArith.
From Verif Require Import Base GoStr Header NetMultipart RequestSpec.

(** a field or, with a file name, a file; further headers *)
Record item := mkItem { it_name : gostr; it_file : option gostr; it_headers : list (gostr * gostr); it_data : gostr }.

(** [quoted s t]: t is a way to write s between quotation marks: a quotation mark and
    a backslash stand behind a backslash *)
Inductive quoted : gostr -> gostr -> Prop :=
  | qd_nil : quoted [] []
  | qd_plain a s t : a ∉ [""""; "\"; "013"; "010"]%char -> quoted s t -> quoted (a :: s) (a :: t)
  | qd_pair a s t : a ∈ [""""; "\"]%char -> quoted s t -> quoted (a :: s) ("\"%char :: a :: t).
(** form-data; name="..." and, for a file, ; filename="..." *)
Inductive disposition_text (i : item) : gostr -> Prop :=
  | dt_field n : it_file i = None -> quoted (it_name i) n ->
      disposition_text i (L "form-data; name=""" ++ n ++ L """")
  | dt_file f n m : it_file i = Some f -> quoted (it_name i) n -> quoted f m ->
      disposition_text i (L "form-data; name=""" ++ n ++ L """; filename=""" ++ m ++ L """").

Definition line_end : gostr := ["013"; "010"]%char.
(** a header line other than Content-Disposition and Content-Transfer-Encoding *)
Definition other_header (kv : gostr * gostr) : Prop :=
  kv.1 <> [] /\ is_token kv.1 /\ ~ same_name kv.1 (L "Content-Disposition") /\ ~ same_name kv.1 (L "Content-Transfer-Encoding") /\
  Forall (fun a => (32 <= N_of_ascii a)%N) kv.2 /\ head kv.2 <> Some " "%char /\ last kv.2 <> Some " "%char.
Definition header_line (kv : gostr * gostr) : gostr := kv.1 ++ L ": " ++ kv.2 ++ line_end.
(** one part behind its boundary line: Content-Disposition, the other headers before
    and after it, an empty line, the content *)
Inductive part_text (i : item) : gostr -> Prop :=
  | pt_part d before after : disposition_text i d -> it_headers i = before ++ after -> Forall other_header (it_headers i) ->
      part_text i (concat (map header_line before) ++ header_line (L "Content-Disposition", d) ++ concat (map header_line after) ++
                   line_end ++ it_data i).
(** a boundary that the data does not contain at the beginning of a line *)
Definition separates (b data : gostr) : Prop := forall x y, line_end ++ data <> x ++ line_end ++ L "--" ++ b ++ y.
(** the body *)
Inductive body_text (b : gostr) : list item -> gostr -> Prop :=
  | bt_end epilogue : epilogue = [] \/ (exists e, epilogue = line_end ++ e) -> body_text b [] (L "--" ++ b ++ L "--" ++ epilogue)
  | bt_part i is t rest : part_text i t -> separates b (it_data i) -> body_text b is rest ->
      body_text b (i :: is) (L "--" ++ b ++ line_end ++ t ++ line_end ++ rest).
(** a body with a line that begins like a boundary line behind one of its parts, but is
    none: the boundary is followed by something else than blanks, or than -- and blanks *)
Definition blank (a : ascii) : Prop := a = " "%char \/ a = "009"%char.
Definition spoils (x : gostr) : Prop :=
  "010"%char ∉ x /\ (exists a y, x = a :: y /\ (blank a \/ a = "-"%char)) /\
  forall y, Forall blank y -> x <> y /\ x <> L "--" ++ y.
Inductive spoilt_text (b : gostr) : gostr -> Prop :=
  | sp_here i t x z : part_text i t -> separates b (it_data i) -> spoils x ->
      spoilt_text b (L "--" ++ b ++ line_end ++ t ++ line_end ++ L "--" ++ b ++ x ++ line_end ++ z)
  | sp_later i t rest : part_text i t -> separates b (it_data i) -> spoilt_text b rest ->
      spoilt_text b (L "--" ++ b ++ line_end ++ t ++ line_end ++ rest).
(** boundaries of RFC 2046, without spaces *)
Definition boundary_byte (a : ascii) : Prop :=
  a ∈ L "abcdefghijklmnopqrstuvwxyzABCDEFGHIJKLMNOPQRSTUVWXYZ0123456789'()+_,-./:=?".
Definition boundary (b : gostr) : Prop := b <> [] /\ (length b <= 70)%nat /\ Forall boundary_byte b.
(** the Content-Type of the request *)
Inductive type_text (b : gostr) : gostr -> Prop :=
  | tt_plain : Forall (fun a => a ∉ L "()<>@,;:\""/[]?=") b -> type_text b (L "multipart/form-data; boundary=" ++ b)
  | tt_quoted : type_text b (L "multipart/form-data; boundary=""" ++ b ++ L """").

(** ** What arrives *)
(** the values of the fields of a name and the files of a name, in their order *)
Definition is_file (i : item) : option gostr := match it_file i with Some [] | None => None | Some f => Some f end.
Definition field_values (name : gostr) (is : list item) : list gostr :=
  map it_data (List.filter (fun i => bool_decide (it_name i = name /\ is_file i = None)) is).
Definition sent_files (name : gostr) (is : list item) : list item :=
  List.filter (fun i => bool_decide (it_name i = name /\ is_file i <> None)) is.
(** the values of a header field, in their order *)
Definition header_values (k : gostr) (hs : list (gostr * gostr)) : list gostr :=
  map snd (List.filter (fun kv => bool_decide (map lower_byte kv.1 = map lower_byte k)) hs).
(** an uploaded file is the one sent: its name, its content, its other headers *)
Definition arrived (i : item) (u : upload) : Prop :=
  it_file i = Some (up_name u) /\ up_content u = it_data i /\
  (forall k, is_token k -> ~ same_name k (L "Content-Disposition") -> h_values (up_header u) k = header_values k (it_headers i)).
(** the fields that have a name, as pairs, and their length *)
Definition named_fields (is : list item) : list item := List.filter (fun i => bool_decide (it_name i <> [] /\ is_file i = None)) is.
Definition field_pairs (is : list item) : list (gostr * gostr) := map (fun i => (it_name i, it_data i)) (named_fields is).
Definition fields_length (is : list item) : Z := Z.of_nat (list_sum (map (fun i => length (it_data i)) (named_fields is))).
(** what the application gets for the parts: the values of the fields and the files *)
Definition form_arrived (is : list item) (vs : gmap gostr (list gostr)) (fs : gmap gostr (list upload)) : Prop :=
  (forall name, name <> [] -> vs !! name = match field_values name is with [] => None | l => Some l end) /\
  (forall name, name <> [] -> Forall2 arrived (sent_files name is) (default [] (fs !! name)) /\ (fs !! name = None <-> sent_files name is = [])) /\
  vs !! [] = None /\ fs !! [] = None.

(** ** What the calls of a handler find *)
From Verif Require Import Binding QuerySpec Forms.
(** the answer to a call, in a request with a query of pairs [ps] and a body of parts
    [is]: the values of the query come before those of the fields *)
Inductive finds (ps : list (gostr * gostr)) (is : list item) : fcall -> fans (D:=upload) -> Prop :=
  | finds_query k : finds ps is (CQuery k) (AValues (values_of k (ps ++ field_pairs is)))
  | finds_value k : finds ps is (CFormValue k) (AValue (hd [] (values_of k (ps ++ field_pairs is))))
  | finds_file k i l u : k <> [] -> sent_files k is = i :: l -> arrived i u -> finds ps is (CFormFile k) (AFile (FFile u))
  | finds_no_file k : k = [] \/ sent_files k is = [] -> finds ps is (CFormFile k) (AFile FMissing)
  | finds_upload vs fs c : c = CBind \/ c = CBindWith BMultipart -> form_arrived is vs fs -> finds ps is c (ASource vs fs)
  | finds_form (f : gmap gostr (list gostr)) : (forall k, default [] (f !! k) = values_of k (ps ++ field_pairs is)) -> finds ps is (CBindWith BForm) (ASource f ∅)
  | finds_other b : b ∈ [BJSON; BXML; BQuery; BHeader] -> finds ps is (CBindWith b) AOther.
(** the answer to a call in a request whose body is no form: nothing of the body is
    found, only the query *)
Inductive finds_query_only (ps : list (gostr * gostr)) : fcall -> fans (D:=upload) -> Prop :=
  | fq_query k : finds_query_only ps (CQuery k) (AValues (values_of k ps))
  | fq_value k : finds_query_only ps (CFormValue k) (AValue (hd [] (values_of k ps)))
  | fq_file k : finds_query_only ps (CFormFile k) (AFile FError)
  | fq_upload c : c = CBind \/ c = CBindWith BMultipart -> finds_query_only ps c AError
  | fq_form (f : gmap gostr (list gostr)) : (forall k, default [] (f !! k) = values_of k ps) -> finds_query_only ps (CBindWith BForm) (ASource f ∅)
  | fq_other b : b ∈ [BJSON; BXML; BQuery; BHeader] -> finds_query_only ps (CBindWith b) AOther.
(** the first of the calls that ask water for a form panics *)
Definition asks_form (c : fcall) : Prop := c = CBind \/ (exists k, c = CQuery k) \/ exists b, c = CBindWith b /\ b ∉ [BJSON; BXML].
Inductive query_only (ps : list (gostr * gostr)) : bool -> list fcall -> list (fans (D:=upload)) -> Prop :=
  | qo_nil d : query_only ps d [] []
  | qo_panic c cs l : asks_form c -> query_only ps true cs l -> query_only ps false (c :: cs) (APanic :: l)
  | qo_next d c a cs l : (asks_form c -> d = true) -> finds_query_only ps c a -> query_only ps d cs l -> query_only ps d (c :: cs) (a :: l).
