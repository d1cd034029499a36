(** What binding a form to a value is for, stated without the functions of the
    package: the parts of a struct tag, the places of a struct that binding looks
    at, and what text stands for in a field. *)
From Coq Require Import ZArith NArith.
From Verif Require Import Base GoStr UtilSpec Header Pattern Tree Router Ctx Binding.

(** ** Struct tags *)
Fixpoint commas (l : list gostr) : gostr :=
  match l with
  | [] => []
  | [x] => x
  | x :: l' => x ++ ","%char :: commas l'
  end.
(** the text is name,option,... *)
Definition tag_parts (text name : gostr) (opts : list gostr) : Prop :=
  text = commas (name :: opts) /\ Forall (fun s => ","%char ∉ s) (name :: opts).
(** the first pair with that key *)
Definition tag_text (tags : list (gostr * gostr)) (key text : gostr) : Prop :=
  exists pre post, tags = pre ++ (key, text) :: post /\ key ∉ pre.*1.
(** an option that gives a default *)
Definition gives (o d : gostr) : Prop := o = L "default=" ++ d \/ (o = L "default" /\ d = []).
(** the default of a list of options: the last one counts, and there may be none *)
Inductive defaults : list gostr -> gostr -> Prop :=
  | defaults_none opts : (forall o d, o ∈ opts -> ~ gives o d) -> defaults opts []
  | defaults_some pre o post d : gives o d -> (forall o' d', o' ∈ post -> ~ gives o' d') -> defaults (pre ++ o :: post) d.

(** [tagged tag f key d]: the field has a key in the form, and the default d *)
Definition tagged (tag : gostr) (f : field) (key d : gostr) : Prop :=
  exists text name opts, tag_text (f_tag f) tag text /\ tag_parts text name opts /\
    name <> [] /\ name <> L "-" /\ defaults opts d /\
    key = if bool_decide (tag = L "header") then canon name else name.

(** the texts a field is bound to: the values of its key, or its default *)
Definition texts (form : gmap gostr (list gostr)) (tag : gostr) (f : field) (vals : list gostr) : Prop :=
  exists key d, tagged tag f key d /\
    (form !! key = Some vals \/ (form !! key = None /\ d <> [] /\ vals = [d])).
(** the uploaded files it is bound to *)
Definition uploads {D} (form : gmap gostr (list gostr)) (files : gmap gostr (list D)) (tag : gostr) (f : field) (fs : list D) : Prop :=
  exists key, tagged tag f key [] /\ form !! key = None /\ files !! key = Some fs.
Definition selected {D} (form : gmap gostr (list gostr)) (files : gmap gostr (list D)) (tag : gostr) (f : field) : Prop :=
  (exists vals, texts form tag f vals) \/ exists fs, uploads form files tag f fs.

(** ** Places *)
Definition open_field (f : field) : Prop := f_exported f = true \/ f_anon f = true.
(** [place G t v p fl f u w]: following the fields p from a struct v of type t
    leads to the field f of type u, which holds w; fl are the struct fields on the
    way.  A nil pointer to a struct is followed as if it pointed to a zero value;
    other pointers are followed when embedded. *)
Inductive place {D} (G : golib D) : gotype -> goval D -> list nat -> list field -> field -> gotype -> goval D -> Prop :=
  | place_here fs vs i f t v :
      fs !! i = Some (f, t) -> vs !! i = Some v -> place G (TStruct fs) (VStruct vs) [i] [] f t v
  | place_struct fs vs i f t v p fl g u w :
      fs !! i = Some (f, t) -> vs !! i = Some v -> open_field f ->
      place G t v p fl g u w -> place G (TStruct fs) (VStruct vs) (i :: p) (f :: fl) g u w
  | place_new fs vs i f e p fl g u w :
      fs !! i = Some (f, TPtr e) -> vs !! i = Some (VPtr None) -> f_exported f = true ->
      place G (resolve G e) (zero G (resolve G e)) p fl g u w ->
      place G (TStruct fs) (VStruct vs) (i :: p) (f :: fl) g u w
  | place_embedded fs vs i f e v p fl g u w :
      fs !! i = Some (f, TPtr e) -> vs !! i = Some (VPtr (Some v)) -> f_anon f = true ->
      place G (resolve G e) v p fl g u w ->
      place G (TStruct fs) (VStruct vs) (i :: p) (f :: fl) g u w.
(** what is there *)
Fixpoint value_at {D} (v : goval D) (p : list nat) : option (goval D) :=
  match p with
  | [] => Some v
  | i :: p' =>
      match v with
      | VStruct vs | VPtr (Some (VStruct vs)) => match vs !! i with Some w => value_at w p' | None => None end
      | _ => None
      end
  end.
(** a field that holds a value and not further fields *)
Definition leaf {D} (G : golib D) (f : field) (t : gotype) (v : goval D) : Prop :=
  f_anon f = false /\
  (forall fs, t <> TStruct fs) /\ t <> TFile /\
  (forall e, t = TPtr e -> v = VPtr None ->
     (forall fs, resolve G e <> TStruct fs) /\ resolve G e <> TTime).

(** ** Values *)
(** the number a text stands for; the empty text stands for 0 *)
Definition number (s : gostr) (z : Z) : Prop := decimal s z \/ (s = [] /\ z = 0%Z).
Definition unumber (s : gostr) (z : Z) : Prop := udecimal s z \/ (s = [] /\ z = 0%Z).
(** the numbers of a type *)
Definition fits_int (w : N) (z : Z) : Prop := (- 2 ^ (Z.of_N w - 1) <= z < 2 ^ (Z.of_N w - 1))%Z.
Definition fits_uint (w : N) (z : Z) : Prop := (0 <= z < 2 ^ Z.of_N w)%Z.
(** the truth value a text stands for *)
Definition truth (s : gostr) (b : bool) : Prop :=
  if b then s ∈ [L "1"; L "t"; L "T"; L "true"; L "TRUE"; L "True"]
  else s ∈ [L "0"; L "f"; L "F"; L "false"; L "FALSE"; L "False"; []].

(** [carries G t b s a]: a is what a field of type t that held b should hold after
    it was bound to the text s *)
Inductive carries {D} (G : golib D) : gotype -> goval D -> gostr -> goval D -> Prop :=
  | carries_int w b s z : number s z -> fits_int w z -> carries G (TInt w) b s (VNum z)
  | carries_duration b s z : number s z -> fits_int 64 z -> carries G TDuration b s (VNum z)
  | carries_uint w b s z : unumber s z -> fits_uint w z -> carries G (TUint w) b s (VNum z)
  | carries_bool b s x : truth s x -> carries G TBool b s (VBool x)
  | carries_string b s : carries G TString b s (VString s)
  | carries_float w b s x : g_float G w (if bool_decide (s = []) then L "0.0" else s) = Some x -> carries G (TFloat w) b s (VOpaque x)
  | carries_new e s a : carries G (resolve G e) (zero G (resolve G e)) s a -> carries G (TPtr e) (VPtr None) s (VPtr (Some a))
  | carries_old e b s a : carries G (resolve G e) b s a -> carries G (TPtr e) (VPtr (Some b)) s (VPtr (Some a)).
(** numbers that a field cannot hold *)
Inductive too_big {D} (G : golib D) : gotype -> gostr -> Prop :=
  | too_big_int w s z : number s z -> ~ fits_int w z -> too_big G (TInt w) s
  | too_big_uint w s z : unumber s z -> ~ fits_uint w z -> too_big G (TUint w) s
  | too_big_ptr e s : too_big G (resolve G e) s -> too_big G (TPtr e) s.
(** a true field bound to false *)
Inductive clears {D} (G : golib D) : gotype -> goval D -> gostr -> Prop :=
  | clears_bool s : truth s false -> clears G TBool (VBool true) s
  | clears_ptr e b s : clears G (resolve G e) b s -> clears G (TPtr e) (VPtr (Some b)) s.
(** types of fields that hold one number, truth value or string *)
Definition plain (t : gotype) : Prop :=
  match t with TInt _ | TUint _ | TDuration | TBool | TFloat _ | TString => True | _ => False end.
Definition plain_field {D} (G : golib D) (t : gotype) : Prop :=
  plain t \/ exists e, t = TPtr e /\ plain (resolve G e).

(** ** Recursion *)
(** [opens G f t v t' v']: the field f of type t that holds v contains, or gets, a struct v' of type t' *)
Inductive opens {D} (G : golib D) : field -> gotype -> goval D -> gotype -> goval D -> Prop :=
  | opens_struct f fs v : open_field f -> opens G f (TStruct fs) v (TStruct fs) v
  | opens_new f e fs : f_exported f = true -> resolve G e = TStruct fs -> opens G f (TPtr e) (VPtr None) (TStruct fs) (zero G (TStruct fs))
  | opens_embedded f e fs v : f_anon f = true -> resolve G e = TStruct fs -> opens G f (TPtr e) (VPtr (Some v)) (TStruct fs) v.
(** one level down *)
Inductive below {D} (G : golib D) : gotype * goval D -> gotype * goval D -> Prop :=
  | below_intro fs vs i f t v t' v' :
      fs !! i = Some (f, t) -> vs !! i = Some v -> opens G f t v t' v' -> below G (t', v') (TStruct fs, VStruct vs).
(** the struct has finite depth, nil pointers to structs followed *)
Definition finite_depth {D} (G : golib D) (t : gotype) (v : goval D) : Prop := Acc (below G) (t, v).
(** the same of a type *)
Inductive below_type {D} (G : golib D) : gotype -> gotype -> Prop :=
  | below_type_struct fs i f fs' : fs !! i = Some (f, TStruct fs') -> below_type G (TStruct fs') (TStruct fs)
  | below_type_ptr fs i f e : fs !! i = Some (f, TPtr e) -> below_type G (resolve G e) (TStruct fs).
Definition not_recursive {D} (G : golib D) (t : gotype) : Prop := Acc (below_type G) t.

(** ** Types of values *)
(** types of the sizes Go has, without references other than below pointers and slices *)
Fixpoint wf_type (t : gotype) : Prop :=
  match t with
  | TInt w | TUint w => w ∈ [8; 16; 32; 64]%N
  | TStruct fs => fold_right (fun ft P => wf_type (snd ft) /\ P) True fs
  | TPtr (TRef _) | TSlice (TRef _) => True
  | TPtr e | TSlice e | TArray _ e => wf_type e
  | TRef _ => False
  | _ => True
  end.
Definition wf_lib {D} (G : golib D) : Prop := forall n, wf_type (g_decl G n).
(** values of the shape that their type prescribes *)
Inductive typed {D} (G : golib D) : gotype -> goval D -> Prop :=
  | typed_int w z : fits_int w z -> typed G (TInt w) (VNum z)
  | typed_duration z : fits_int 64 z -> typed G TDuration (VNum z)
  | typed_uint w z : fits_uint w z -> typed G (TUint w) (VNum z)
  | typed_bool b : typed G TBool (VBool b)
  | typed_string s : typed G TString (VString s)
  | typed_opaque t x : match t with TFloat _ | TTime | TFile | TMap _ _ | TOther => True | _ => False end -> typed G t (VOpaque x)
  | typed_struct fs vs : Forall2 (fun ft v => typed G (snd ft) v) fs vs -> typed G (TStruct fs) (VStruct vs)
  | typed_nil e : typed G (TPtr e) (VPtr None)
  | typed_ptr e v : typed G (resolve G e) v -> typed G (TPtr e) (VPtr (Some v))
  | typed_nil_slice e : typed G (TSlice e) (VSlice None)
  | typed_slice e l : Forall (typed G (resolve G e)) l -> typed G (TSlice e) (VSlice (Some l))
  | typed_array n e l : length l = n -> Forall (typed G e) l -> typed G (TArray n e) (VArray l)
  | typed_mapS m : typed G TMapS (VMapS m)
  | typed_mapL m : typed G TMapL (VMapL m)
  | typed_no_iface : typed G TIface (VIface None)
  | typed_iface t v : typed G t v -> typed G TIface (VIface (Some (t, v))).

(** ** Validation *)
(** [invalid G t v]: v does not satisfy the rules of its type.  nil is never
    valid, structs are judged by the struct validator, slices and arrays by their
    elements, pointers and interfaces by what they hold. *)
Inductive invalid {D} (G : golib D) : gotype -> goval D -> Prop :=
  | invalid_nil : invalid G TIface (VIface None)
  | invalid_iface t v : invalid G t v -> invalid G TIface (VIface (Some (t, v)))
  | invalid_ptr e v : invalid G (resolve G e) v -> invalid G (TPtr e) (VPtr (Some v))
  | invalid_struct t v err : (exists fs, t = TStruct fs) \/ t = TTime \/ t = TFile -> g_struct G t v = Some err -> invalid G t v
  | invalid_slice e l w : w ∈ l -> invalid G (resolve G e) w -> invalid G (TSlice e) (VSlice (Some l))
  | invalid_array n e l w : w ∈ l -> invalid G e w -> invalid G (TArray n e) (VArray l).
(** a nil pointer among the values that are judged *)
Inductive nil_inside {D} (G : golib D) : gotype -> goval D -> Prop :=
  | nil_here e : nil_inside G (TPtr e) (VPtr None)
  | nil_iface t v : nil_inside G t v -> nil_inside G TIface (VIface (Some (t, v)))
  | nil_ptr e v : nil_inside G (resolve G e) v -> nil_inside G (TPtr e) (VPtr (Some v))
  | nil_slice e l w : w ∈ l -> nil_inside G (resolve G e) w -> nil_inside G (TSlice e) (VSlice (Some l))
  | nil_array n e l w : w ∈ l -> nil_inside G e w -> nil_inside G (TArray n e) (VArray l).

(** ** The choice of a decoder *)
(** the media type of a Content-Type header, and the rest *)
Definition media_type (h m : gostr) : Prop :=
  exists rest, h = m ++ rest /\ " "%char ∉ m /\ ";"%char ∉ m /\
    (rest = [] \/ exists c r, rest = c :: r /\ (c = " "%char \/ c = ";"%char)).
Definition chooses (method media : gostr) (b : binder) : Prop :=
  match b with
  | BJSON => method <> L "GET" /\ media = L "application/json"
  | BXML => method <> L "GET" /\ media ∈ [L "application/xml"; L "text/xml"]
  | BMultipart => method ∈ [L "POST"; L "PUT"; L "PATCH"] /\ media = L "multipart/form-data"
  | BForm => method = L "GET" \/
      (media ∉ [L "application/json"; L "application/xml"; L "text/xml"] /\
       (media = L "multipart/form-data" -> method ∉ [L "POST"; L "PUT"; L "PATCH"]))
  | _ => False
  end.

(** ** Times *)
(** the value of a key of a struct tag, empty when there is none *)
Definition tag_value (f : field) (key text : gostr) : Prop :=
  tag_text (f_tag f) key text \/ (text = [] /\ forall text', ~ tag_text (f_tag f) key text').
(** letters count as their lower case *)
Definition any_case (s word : gostr) : Prop := Forall2 (fun a b => lower_byte a = b) s word.
(** the zone in which the text of a time is read *)
Inductive in_zone {D} (G : golib D) (f : field) : zone -> Prop :=
  | in_named n : tag_value f (L "time_location") n -> n <> [] -> g_zone G n = true -> in_zone G f (ZNamed n)
  | in_utc s : tag_value f (L "time_location") [] -> tag_value f (L "time_utc") s -> truth s true -> in_zone G f ZUTC
  | in_local s : tag_value f (L "time_location") [] -> tag_value f (L "time_utc") s -> ~ truth s true -> in_zone G f ZLocal.
(** [instant G f s d]: d is the time that the text s stands for in the field f:
    seconds or nanoseconds since 1970, or a text in the layout that the tag
    time_format gives (RFC 3339 if there is none); outside the first two the empty
    text is the zero time *)
Inductive instant {D} (G : golib D) (f : field) : gostr -> D -> Prop :=
  | instant_unix fmt s z : tag_value f (L "time_format") fmt -> any_case fmt (L "unix") ->
      decimal s z -> fits_int 64 z -> instant G f s (g_unix G z 0)
  | instant_nano fmt s z sec ns : tag_value f (L "time_format") fmt -> any_case fmt (L "unixnano") ->
      decimal s z -> fits_int 64 z -> z = (sec * 1000000000 + ns)%Z -> (-1000000000 < ns < 1000000000)%Z -> (0 <= ns * z)%Z ->
      instant G f s (g_unix G sec ns)
  | instant_empty fmt : tag_value f (L "time_format") fmt -> ~ any_case fmt (L "unix") -> ~ any_case fmt (L "unixnano") ->
      instant G f [] (g_zero G TTime)
  | instant_text fmt s z d : tag_value f (L "time_format") fmt -> ~ any_case fmt (L "unix") -> ~ any_case fmt (L "unixnano") ->
      s <> [] -> in_zone G f z ->
      g_time G (if bool_decide (fmt = []) then L "2006-01-02T15:04:05Z07:00" else fmt) s z = Some d -> instant G f s d.
Definition time_field {D} (G : golib D) (t : gotype) : Prop := t = TTime \/ exists e, t = TPtr e /\ resolve G e = TTime.
(** the value of a field of such a type *)
Inductive shows {D} (G : golib D) (f : field) : gotype -> gostr -> goval D -> Prop :=
  | shows_time s d : instant G f s d -> shows G f TTime s (VOpaque d)
  | shows_ptr e s d : resolve G e = TTime -> instant G f s d -> shows G f (TPtr e) s (VPtr (Some (VOpaque d))).
(** a field that holds a value: a leaf, or a pointer to a time *)
Definition valued {D} (G : golib D) (f : field) (t : gotype) (v : goval D) : Prop :=
  leaf G f t v \/ (f_anon f = false /\ time_field G t).

(** ** Whole calls *)
(** the entries of a form in the order in which they are visited *)
Definition visits (order : list (gostr * list gostr)) (form : gmap gostr (list gostr)) : Prop := order ≡ₚ map_to_list form.
(** keys have values *)
Definition full {X} (m : gmap gostr (list X)) : Prop := forall k, m !! k <> Some [].
(** fields that hold integers *)
Definition integer (t : gotype) : Prop := match t with TInt _ | TUint _ | TDuration => True | _ => False end.
Definition integer_field {D} (G : golib D) (t : gotype) : Prop :=
  integer t \/ exists e, t = TPtr e /\ integer (resolve G e).
(** what a decoder returns when the value has been filled in *)
Definition then_validated {D} (G : golib D) (obj : option (gotype * goval D)) (out : option (gotype * goval D) * bout) : Prop :=
  fst out = obj /\
  (validate G obj = Ok None -> snd out = BOk) /\
  (forall e, validate G obj = Ok (Some e) -> snd out = BErr e) /\
  (forall m, validate G obj = Panic m -> snd out = BPanic m).
(** texts that a field can be set from *)
Inductive readable {D} (G : golib D) (f : field) : gotype -> goval D -> list gostr -> Prop :=
  | readable_one t v s rest a : plain_field G t -> carries G t v s a -> readable G f t v (s :: rest)
  | readable_all e v vals : vals <> [] -> plain_field G (resolve G e) ->
      Forall (fun s => exists a, carries G (resolve G e) (zero G (resolve G e)) s a) vals -> readable G f (TSlice e) v vals
  | readable_time t v s rest a : time_field G t -> shows G f t s a -> readable G f t v (s :: rest)
  | readable_times e v vals : vals <> [] -> time_field G (resolve G e) ->
      Forall (fun s => exists a, shows G f (resolve G e) s a) vals -> readable G f (TSlice e) v vals.
(** which part of a request a binder reads: values, uploaded files, and the struct
    tag that names them; f is the parsed form *)
Inductive reads {D} (mform : request -> option (gmap gostr (list gostr) * gmap gostr (list D))) (query : request -> gmap gostr (list gostr))
    (r : request) (f : gmap gostr (list gostr)) : binder -> gmap gostr (list gostr) -> gmap gostr (list D) -> gostr -> Prop :=
  | reads_form : reads mform query r f BForm f ∅ (L "form")
  | reads_multipart vals files : mform r = Some (vals, files) -> reads mform query r f BMultipart vals files (L "form")
  | reads_query : reads mform query r f BQuery (query r) ∅ (L "form")
  | reads_header : reads mform query r f BHeader (rq_header r) ∅ (L "header").
(** filled from a form, then validated unless that failed *)
Definition filled {D} (G : golib D) (fuel : nat) (obj : option (gotype * goval D)) (form : gmap gostr (list gostr)) (files : gmap gostr (list D))
    (tag : gostr) (out : option (gotype * goval D) * bout) : Prop :=
  exists order, visits order form /\
    let '(obj', o) := MapForm G fuel obj form order files tag in
    (o <> BOk -> out = (obj', o)) /\ (o = BOk -> then_validated G obj' out).
