(** What the Bind2 methods are for, stated without the functions of the package:
    which keys a field answers to, the places of a value that are looked at, and
    what texts and uploaded files stand for in a field. *)
From Coq Require Import ZArith NArith.
From Verif Require Import Base GoStr UtilSpec Header Binding BindingSpec Mapping.

(** ** Keys *)
(** the struct tag of the field is "-" *)
Definition skipped (tag : gostr) (f : field) : Prop := tag_value f tag (L "-").
(** [bound_as tag f key d]: the field is bound to key, with default d: the name in
    its tag, or its own name if the tag has none *)
Definition bound_as (tag : gostr) (f : field) (key d : gostr) : Prop :=
  exists text name opts, tag_value f tag text /\ text <> L "-" /\ tag_parts text name opts /\ defaults opts d /\
    key <> [] /\ (key = name \/ (name = [] /\ key = f_name f)).
(** the values under a key of a source; names of headers are canonicalized *)
Definition finds {D} (s : setter D) (key : gostr) : option (list gostr) :=
  match s with
  | SForm form | SMulti form _ => form !! key
  | SHeader h => h !! canon key
  end.
(** the uploaded files of a field: only multipart forms have any *)
Definition given_files {D} (s : setter D) (tag : gostr) (f : field) (ups : list D) : Prop :=
  exists key d form files, bound_as tag f key d /\ s = SMulti form files /\ files !! key = Some ups /\ ups <> [].
(** its texts: the values of its key, or its default; files take precedence *)
Definition given_texts {D} (s : setter D) (tag : gostr) (f : field) (vals : list gostr) : Prop :=
  (forall ups, ~ given_files s tag f ups) /\
  exists key d, bound_as tag f key d /\ (finds s key = Some vals \/ (finds s key = None /\ d <> [] /\ vals = [d])).
Definition given {D} (s : setter D) (tag : gostr) (f : field) : Prop :=
  (exists vals, given_texts s tag f vals) \/ exists ups, given_files s tag f ups.

(** ** Places *)
Definition pointer (t : gotype) : Prop := exists e, t = TPtr e.
(** a kind of struct *)
Definition struct (t : gotype) : Prop := (exists fs, t = TStruct fs) \/ t = TTime \/ t = TFile.
(** following pointers from v of type t leads to v' of type t'; nil is followed as
    if it pointed to a zero value *)
Inductive reach {D} (G : golib D) : gotype -> goval D -> gotype -> goval D -> Prop :=
  | reach_here t v : ~ pointer t -> reach G t v t v
  | reach_ptr e v t' v' : reach G (resolve G e) v t' v' -> reach G (TPtr e) (VPtr (Some v)) t' v'
  | reach_nil e t' v' : reach G (resolve G e) (zero G (resolve G e)) t' v' -> reach G (TPtr e) (VPtr None) t' v'.
(** the same without nil pointers *)
Inductive leads {D} (G : golib D) : gotype -> goval D -> gotype -> goval D -> Prop :=
  | leads_here t v : ~ pointer t -> leads G t v t v
  | leads_ptr e v t' v' : leads G (resolve G e) v t' v' -> leads G (TPtr e) (VPtr (Some v)) t' v'.
(** the fields of a struct and their values *)
(** of an upload (mime/multipart): its name, its headers, its size *)
Definition upload_fields : list (field * gotype) :=
  [(mkField (L "Filename") true false [], TString); (mkField (L "Header") true false [], TMap true true);
   (mkField (L "Size") true false [], TInt 64)].
Inductive inside {D} (H : filelib D) : gotype -> goval D -> list (field * gotype) -> list (goval D) -> Prop :=
  | inside_struct fs vs : inside H (TStruct fs) (VStruct vs) fs vs
  | inside_file d : inside H TFile (VOpaque d) upload_fields (x_open H d).
(** a struct that is looked into: the field that holds it is exported or embedded,
    not skipped, and not bound itself (embedded structs never are) *)
Definition walked {D} (s : setter D) (tag : gostr) (f : field) : Prop :=
  open_field f /\ ~ skipped tag f /\ (f_anon f = true \/ ~ given s tag f).
(** [place2 G s tag f t v p g u w]: following the fields p from the field f of type
    t, which holds v, leads to the field g of type u, which holds w *)
Inductive place2 {D} (G : golib D) (s : setter D) (tag : gostr) :
    field -> gotype -> goval D -> list nat -> field -> gotype -> goval D -> Prop :=
  | place2_here f t v : place2 G s tag f t v [] f t v
  | place2_into f t v fs vs i g u w p h u' w' :
      walked s tag f -> reach G t v (TStruct fs) (VStruct vs) -> fs !! i = Some (g, u) -> vs !! i = Some w ->
      place2 G s tag g u w p h u' w' -> place2 G s tag f t v (i :: p) h u' w'.
(** what is there *)
Fixpoint target {D} (v : goval D) : goval D :=
  match v with VPtr (Some w) => target w | _ => v end.
Fixpoint value_at2 {D} (v : goval D) (p : list nat) : option (goval D) :=
  match p with
  | [] => Some v
  | i :: p' =>
      match target v with
      | VStruct vs => match vs !! i with Some w => value_at2 w p' | None => None end
      | _ => None
      end
  end.
(** the field itself can be bound to something: it is exported or embedded, and not
    an embedded struct; t is its type without pointers *)
Definition binds (f : field) (t : gotype) : Prop :=
  open_field f /\ (f_anon f = false \/ ~ struct t).
(** something at or below the field is bound *)
Inductive stirs {D} (G : golib D) (H : filelib D) (s : setter D) (tag : gostr) : field -> gotype -> goval D -> Prop :=
  | stirs_here f t v t' v' : reach G t v t' v' -> binds f t' -> given s tag f -> stirs G H s tag f t v
  | stirs_below f t v t' v' fs vs i g u w :
      walked s tag f -> reach G t v t' v' -> inside H t' v' fs vs -> fs !! i = Some (g, u) -> vs !! i = Some w ->
      stirs G H s tag g u w -> stirs G H s tag f t v.

(** [copied H s tag f t v g u w]: the field g of type u, which holds w, is a part of
    the value v of type t of the field f: structs are looked into, pointers are not *)
Inductive copied {D} (H : filelib D) (s : setter D) (tag : gostr) : field -> gotype -> goval D -> field -> gotype -> goval D -> Prop :=
  | copied_here f t v : copied H s tag f t v f t v
  | copied_into f t v fs vs i g u w h u' w' :
      walked s tag f -> inside H t v fs vs -> fs !! i = Some (g, u) -> vs !! i = Some w ->
      copied H s tag g u w h u' w' -> copied H s tag f t v h u' w'.
(** something would have to be written into the field itself: texts or files belong
    to it, or it is a nil pointer and something below it is bound.  Arrays without
    elements need no writing. *)
Definition must_write {D} (G : golib D) (H : filelib D) (s : setter D) (tag : gostr) (g : field) (u : gotype) (w : goval D) : Prop :=
  (~ pointer u /\ (forall e, u <> TArray 0 e) /\ binds g u /\ given s tag g) \/
  (pointer u /\ w = VPtr None /\ stirs G H s tag g u w).

(** ** Values *)
(** [reads_as G f t b s a]: a is what a field f, or an element of it, of type t
    that held b should hold after it was bound to the text s *)
Inductive reads_as {D} (G : golib D) (f : field) : gotype -> goval D -> gostr -> goval D -> Prop :=
  | reads_int w b s z : number s z -> fits_int w z -> reads_as G f (TInt w) b s (VNum z)
  | reads_uint w b s z : unumber s z -> fits_uint w z -> reads_as G f (TUint w) b s (VNum z)
  | reads_duration b s z : g_duration G s = Some z -> reads_as G f TDuration b s (VNum z)
  | reads_bool b s x : truth s x -> reads_as G f TBool b s (VBool x)
  | reads_float w b s x : g_float G w (if bool_decide (s = []) then L "0.0" else s) = Some x -> reads_as G f (TFloat w) b s (VOpaque x)
  | reads_string b s : reads_as G f TString b s (VString s)
  | reads_time b s d : instant G f s d -> reads_as G f TTime b s (VOpaque d)
  | reads_json t b s a : match t with TStruct _ | TFile | TMapS | TMapL | TMap _ _ => True | _ => False end ->
      g_json G t s b = (a, true) -> reads_as G f t b s a.
(** the same of all texts of a field: the first one counts (a key without values
    counts as an empty text), except for slices and arrays *)
Inductive bears {D} (G : golib D) (f : field) : gotype -> goval D -> list gostr -> goval D -> Prop :=
  | bears_one t b vals a : reads_as G f t b (hd [] vals) a -> bears G f t b vals a
  | bears_slice e b vals l : Forall2 (fun s a => reads_as G f (resolve G e) (zero G (resolve G e)) s a) vals l ->
      bears G f (TSlice e) b vals (VSlice (Some l))
  | bears_array n e bs vals l : length vals = n ->
      Forall2 (fun sb a => reads_as G f e (snd sb) (fst sb) a) (zip vals bs) l ->
      bears G f (TArray n e) (VArray bs) vals (VArray l).
(** [stores G t b ups a]: a is what a field, or an element of it, of type t should
    hold after files were uploaded under its key *)
Inductive stores {D} (G : golib D) : gotype -> list D -> goval D -> Prop :=
  | stores_file d ups : stores G TFile (d :: ups) (VOpaque d)
  | stores_ptr e d ups : resolve G e = TFile -> stores G (TPtr e) (d :: ups) (VPtr (Some (VOpaque d)))
  | stores_slice e ups l : Forall2 (fun d a => stores G (resolve G e) [d] a) ups l -> stores G (TSlice e) ups (VSlice (Some l))
  | stores_array n e ups l : length ups = n -> Forall2 (fun d a => stores G e [d] a) ups l -> stores G (TArray n e) ups (VArray l).

(** ** Whole values *)
(** the fields that a call looks at, from a value that was passed *)
Definition held {D} (G : golib D) (s : setter D) (tag : gostr) (t : gotype) (v : goval D) (p : list nat) (g : field) (u : gotype) (w : goval D) : Prop :=
  place2 G s tag emptyField t v p g u w.
(** the unexported embedded fields that are looked at are structs or lead to one
    without nil pointers, unless nothing below them is bound *)
Definition all_settable {D} (G : golib D) (H : filelib D) (s : setter D) (tag : gostr) (f : field) (t : gotype) (v : goval D) : Prop :=
  forall p g u w, place2 G s tag f t v p g u w -> f_exported g = false -> stirs G H s tag g u w ->
    exists t' x, leads G u w t' x /\ struct t'.
(** every text and every file that belongs to a field suits it *)
Definition fits_in {D} (G : golib D) (s : setter D) (tag : gostr) (g : field) (u : gotype) (w : goval D) : Prop :=
  forall t' b, reach G u w t' b -> binds g t' ->
    (forall vals, given_texts s tag g vals -> exists a, bears G g t' b vals a) /\
    (forall ups, given_files s tag g ups -> exists a, stores G t' ups a).
(** the same, and of the fields of a file header *)
Definition suits {D} (G : golib D) (H : filelib D) (s : setter D) (tag : gostr) (g : field) (u : gotype) (w : goval D) : Prop :=
  fits_in G s tag g u w /\
  (walked s tag g -> forall d i h t x, reach G u w TFile (VOpaque d) -> upload_fields !! i = Some (h, t) -> x_open H d !! i = Some x ->
     fits_in G s tag h t x).
(** types that do not contain themselves *)
Inductive part_of {D} (G : golib D) : gotype -> gotype -> Prop :=
  | part_field fs i f t : fs !! i = Some (f, t) -> part_of G t (TStruct fs)
  | part_ptr e : part_of G (resolve G e) (TPtr e)
  | part_slice e : part_of G (resolve G e) (TSlice e)
  | part_array n e : part_of G e (TArray n e).
Definition well_founded_type {D} (G : golib D) (t : gotype) : Prop := Acc (part_of G) t.
(** file headers: opening and closing are inverse, and the fields have their types *)
Record wf_files {D} (G : golib D) (H : filelib D) : Prop := {
  wf_close d : x_close H (x_open H d) = d;
  wf_open d : Forall2 (fun ft v => typed G (snd ft) v) upload_fields (x_open H d)
}.
(** ** Calls *)
(** a call of a Bind2 method: of a binder of requests, or of the one for path parameters *)
Inductive call2 (D : Type) :=
  | CRequest (b : binder2) (r : source (D := D))
  | CUri (m : gmap gostr (list gostr)).
Arguments CRequest {D}.
Arguments CUri {D}.
Definition do_bind2 {D} (G : golib D) (H : filelib D) (fuel : nat) (c : call2 D) (obj : option (gotype * goval D)) : option (gotype * goval D) * bout :=
  match c with
  | CRequest b r => binder_Bind2 G H fuel b r obj
  | CUri m => uri_Bind2 G H fuel m obj
  end.
(** what it reads, and the struct tag that names the keys *)
Inductive reads2 {D} : call2 D -> setter D -> gostr -> Prop :=
  | reads2_form r : reads2 (CRequest B2Form r) (SForm (s_form r)) (L "form")
  | reads2_multipart r : reads2 (CRequest B2Multipart r) (SMulti (s_mform r) (s_files r)) (L "form")
  | reads2_query r : reads2 (CRequest B2Query r) (SForm (s_query r)) (L "form")
  | reads2_header r : reads2 (CRequest B2Header r) (SHeader (s_header r)) (L "header")
  | reads2_uri m : reads2 (CUri m) (SForm m) (L "uri").
(** the map that fills a map: headers and multipart forms fill none *)
Inductive fills2 {D} : call2 D -> gmap gostr (list gostr) -> Prop :=
  | fills2_form r : fills2 (CRequest B2Form r) (s_form r)
  | fills2_query r : fills2 (CRequest B2Query r) (s_query r)
  | fills2_uri m : fills2 (CUri m) m.
(** maps with string keys *)
Definition text_map (t : gotype) : Prop := t = TMapS \/ t = TMapL \/ exists b, t = TMap true b.
(** a struct type with a field that points to the same type, which is looked into *)
Definition self_containing {D} (G : golib D) (s : setter D) (tag : gostr) (fs : list (field * gotype)) (i : nat) : Prop :=
  exists g e, fs !! i = Some (g, TPtr e) /\ resolve G e = TStruct fs /\ walked s tag g.
(** a map m of type t0 was passed (t0 = t) or a pointer to it, and holds m' afterwards *)
Definition map_in {D} (G : golib D) (t : gotype) (v v' : goval D) (t0 : gotype) (m m' : goval D) : Prop :=
  (t = t0 /\ v = m /\ v' = m') \/ exists e, t = TPtr e /\ resolve G e = t0 /\ v = VPtr (Some m) /\ v' = VPtr (Some m').
