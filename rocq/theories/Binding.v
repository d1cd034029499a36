(** Package binding: which decoder is used, and the mapping of forms to Go values
    (binding/binding.go, binding/map_form.go, binding/mapping.go:240-270 and
    444-493, binding/form.go, query.go, header.go, uri.go, json.go, xml.go,
    validator.go).  The older mapping of the Bind2 methods is in Mapping.v. *)
From Coq Require Import ZArith NArith.
From Verif Require Import Base GoStr Strconv Header.

(** ** Go types and values as package reflect shows them *)

(** reflect.StructField: PkgPath is empty iff the field is exported.  The tag is
    given by its pairs (conventional format; the parser of reflect.StructTag is
    left out). *)
Record field := mkField {
  f_name : gostr;
  f_exported : bool;
  f_anon : bool;                       (* an embedded field *)
  f_tag : list (gostr * gostr)
}.
(** Types, up to what the package distinguishes.  Recursive types go through a
    pointer or a slice: there the element type may be [TRef name], a declared
    type.  int and uint are 64 bits wide. *)
Inductive gotype :=
  | TInt (w : N) | TUint (w : N)
  | TDuration                          (* time.Duration, of kind int64 *)
  | TBool
  | TFloat (w : N)
  | TString
  | TTime                              (* time.Time, a struct *)
  | TFile                              (* multipart.FileHeader, a struct *)
  | TStruct (fs : list (field * gotype))
  | TPtr (e : gotype)
  | TSlice (e : gotype)
  | TArray (n : nat) (e : gotype)
  | TMapS                              (* map[string]string *)
  | TMapL                              (* map[string][]string *)
  | TMap (strkey elemslice : bool)     (* any other map type *)
  | TIface                             (* an interface type *)
  | TOther                             (* channels, functions, complex numbers *)
  | TRef (name : gostr).

(** Values.  [D] are the values whose insides do not matter here: floats, times,
    file headers, other maps.  Pointers own what they point at (no sharing and no
    cycles in the value). *)
Inductive goval (D : Type) :=
  | VNum (z : Z)
  | VBool (b : bool)
  | VString (s : gostr)
  | VOpaque (x : D)
  | VStruct (vs : list (goval D))
  | VPtr (p : option (goval D))
  | VSlice (l : option (list (goval D)))
  | VArray (l : list (goval D))
  | VMapS (m : option (gmap gostr gostr))
  | VMapL (m : option (gmap gostr (list gostr)))
  | VIface (p : option (gotype * goval D)).
Arguments VNum {D} z.
Arguments VBool {D} b.
Arguments VString {D} s.
Arguments VOpaque {D} x.
Arguments VStruct {D} vs.
Arguments VPtr {D} p.
Arguments VSlice {D} l.
Arguments VArray {D} l.
Arguments VMapS {D} m.
Arguments VMapL {D} m.
Arguments VIface {D} p.

(** time zones of setTimeField2 *)
Inductive zone := ZLocal | ZUTC | ZNamed (name : gostr).

(** errors of the package *)
Inductive berr :=
  | ENilObj | ENeedPtr | ENeedStruct
  | ESet (name val : gostr)                  (* map_form.go:144-146 *)
  | EUnknownType                             (* mapping.go:15 *)
  | EFile (name : gostr)                     (* map_form.go:141 *)
  | EMap                                     (* mapping.go:246, 260 *)
  | ENum (e : numerr)                        (* of strconv *)
  | EBool | EFloat | EDuration               (* of strconv, time.ParseDuration *)
  | ETime | EZone                            (* of package time *)
  | EJson                                    (* of the JSON decoder *)
  | EDecode                                  (* of the JSON or XML decoder on a body *)
  | EBody                                    (* json.go:22, xml.go:18 *)
  | EForm                                    (* form.go:60, 74: of Request.ParseMultipartForm *)
  | ELength                                  (* mapping.go:135, 181 *)
  | EFileType                                (* mapping.go:176 *)
  | EInvalid (n : nat)                       (* of the validator *)
  | EList (es : list berr).                  (* validator.go:11 sliceValidateError *)

(** how a call ends; a runtime error or a call of panic is [BPanic]; [BDiverge]:
    the given amount of fuel was not enough *)
Inductive bout := BOk | BErr (e : berr) | BPanic (msg : gostr) | BDiverge.

(** The libraries: declared types; the zero value of types with opaque values;
    strconv.ParseFloat; json.Unmarshal into an existing value; time.Unix;
    time.ParseInLocation; time.ParseDuration (nanoseconds); whether
    time.LoadLocation finds a zone; validator.Validate.Struct. *)
Record golib (D : Type) := mkLib {
  g_decl : gostr -> gotype;
  g_zero : gotype -> D;
  g_float : N -> gostr -> option D;
  g_json : gotype -> gostr -> goval D -> goval D * bool;
  g_unix : Z -> Z -> D;
  g_time : gostr -> gostr -> zone -> option D;
  g_duration : gostr -> option Z;
  g_zone : gostr -> bool;
  g_struct : gotype -> goval D -> option berr
}.
Arguments g_decl {D}.
Arguments g_zero {D}.
Arguments g_float {D}.
Arguments g_json {D}.
Arguments g_unix {D}.
Arguments g_time {D}.
Arguments g_duration {D}.
Arguments g_zone {D}.
Arguments g_struct {D}.

Section Binding.
Context {D : Type} (G : golib D).

(** the element type of a pointer or slice *)
Definition resolve (t : gotype) : gotype := match t with TRef n => g_decl G n | _ => t end.

(** reflect.Zero *)
Fixpoint zero (t : gotype) : goval D :=
  match t with
  | TInt _ | TUint _ | TDuration => VNum 0
  | TBool => VBool false
  | TString => VString []
  | TStruct fs => VStruct (map (fun ft => zero (snd ft)) fs)
  | TPtr _ => VPtr None
  | TSlice _ => VSlice None
  | TArray n e => VArray (replicate n (zero e))
  | TMapS => VMapS None
  | TMapL => VMapL None
  | TIface => VIface None
  | TFloat _ | TTime | TFile | TMap _ _ | TOther | TRef _ => VOpaque (g_zero G t)
  end.

(** reflect.Kind is Struct *)
Definition kind_struct (t : gotype) : bool :=
  match t with TStruct _ | TTime | TFile => true | _ => false end.
(** typeField.Type == multipartFileType (map_form.go:80) *)
Definition file_ptr (t : gotype) : bool :=
  match t with TPtr e => match resolve e with TFile => true | _ => false end | _ => false end.

Definition ro_panic : gostr := L "reflect: using value obtained using unexported field".
Definition type_panic : gostr := L "reflect: wrong type".       (* no value has a wrong shape: see [typed] *)

(** ** binding/mapping.go:30-36 head, for a separator of one byte *)
Definition head (sep : ascii) (s : gostr) : gostr * gostr :=
  match index_byte sep s with
  | None => (s, [])
  | Some i => (take i s, drop (S i) s)
  end.

(** reflect.StructTag.Get *)
Fixpoint tag_get (tags : list (gostr * gostr)) (key : gostr) : gostr :=
  match tags with
  | [] => []
  | (k, v) :: tags' => if seqb k key then v else tag_get tags' key
  end.

(** binding/mapping.go:18-23 *)
Record setOptions := mkOpt {
  o_default : gostr; o_format : gostr; o_utc : gostr; o_loc : gostr
}.

(** binding/map_form.go:241-248 (and mapping.go:52-59): the loop over the rest of
    the tag.  The loop ends when the rest is empty; the empty last option that
    splitting at commas can leave has no effect. *)
Definition default_opt (tail : gostr) : gostr :=
  fold_left (fun d opt => let '(k, v) := head "=" opt in if seqb k (L "default") then v else d)
    (split_byte "," tail) [].

(** binding/map_form.go:226-251 parseFormName *)
Definition parseFormName (f : field) (tag : gostr) : gostr * setOptions :=
  let '(name, tail) := head "," (tag_get (f_tag f) tag) in
  let name := if seqb name [] then L "-" else name in
  let name := if seqb tag (L "header") && negb (seqb name (L "-")) then canon name else name in
  (name, mkOpt (default_opt tail) (tag_get (f_tag f) (L "time_format"))
           (tag_get (f_tag f) (L "time_utc")) (tag_get (f_tag f) (L "time_location"))).

(** reflect.Value.SetInt and SetUint store the low bits *)
Definition wrap_int (w : N) (z : Z) : Z :=
  let m := (2 ^ Z.of_N w)%Z in let r := (z mod m)%Z in if (r <? m / 2)%Z then r else (r - m)%Z.
Definition wrap_uint (w : N) (z : Z) : Z := (z mod 2 ^ Z.of_N w)%Z.

(** time.RFC3339 *)
Definition RFC3339 : gostr := L "2006-01-02T15:04:05Z07:00".

(** binding/mapping.go:444-493 setTimeField2 (and 393-442 setTimeField): the time
    or the error.  strings.ToLower on ASCII. *)
Definition time_value (val : gostr) (opt : setOptions) : D + berr :=
  let format := if seqb (o_format opt) [] then RFC3339 else o_format opt in
  let tf := to_lower format in
  if seqb tf (L "unix") || seqb tf (L "unixnano") then
    match parse_int 64 val with
    | (tv, ErrNone) =>
        let d := if seqb tf (L "unixnano") then 1000000000%Z else 1%Z in
        inl (g_unix G (Z.quot tv d) (Z.rem tv d))
    | (_, e) => inr (ENum e)
    end
  else if seqb val [] then inl (g_zero G TTime)
  else
    let l := if fst (parse_bool (o_utc opt)) then ZUTC else ZLocal in
    if negb (seqb (o_loc opt) []) && negb (g_zone G (o_loc opt)) then inr EZone
    else
      let l := if negb (seqb (o_loc opt) []) then ZNamed (o_loc opt) else l in
      match g_time G format val l with
      | Some t => inl t
      | None => inr ETime
      end.

(** setting a value: [ro] says that it was obtained through an unexported field *)
Definition put (ro : bool) (v v' : goval D) : goval D * bout :=
  if ro then (v, BPanic ro_panic) else (v', BOk).

(** binding/map_form.go:158-223: the switch of setWithProperType2 *)
Definition set_scalar (opt : setOptions) (t : gotype) (ro : bool) (val : gostr) (v : goval D) (name : gostr) : goval D * bout :=
  match t with
  | TInt w =>
      let val := if seqb val [] then L "0" else val in
      match parse_int 64 val with
      | (z, ErrNone) => put ro v (VNum (wrap_int w z))
      | _ => (v, BErr (ESet name val))
      end
  | TDuration =>
      let val := if seqb val [] then L "0" else val in
      match parse_int 64 val with
      | (z, ErrNone) => put ro v (VNum (wrap_int 64 z))
      | _ => (v, BErr (ESet name val))
      end
  | TUint w =>
      let val := if seqb val [] then L "0" else val in
      match parse_uint 64 val with
      | (n, ErrNone) => put ro v (VNum (wrap_uint w (Z.of_N n)))
      | _ => (v, BErr (ESet name val))
      end
  | TBool =>
      let val := if seqb val [] then L "false" else val in
      match parse_bool val with
      | (_, false) => (v, BErr (ESet name val))
      | (true, true) => put ro v (VBool true)
      | (false, true) => (v, BOk)
      end
  | TFloat w =>
      let val := if seqb val [] then L "0.0" else val in
      match g_float G w val with
      | Some x => put ro v (VOpaque x)
      | None => (v, BErr (ESet name val))
      end
  | TString => put ro v (VString val)
  | TTime =>
      if ro then (v, BPanic ro_panic)
      else match time_value val opt with
           | inl x => (VOpaque x, BOk)
           | inr e => (v, BErr e)
           end
  | TStruct _ | TFile | TMapS | TMapL | TMap _ _ =>
      if ro then (v, BPanic ro_panic)
      else let '(v', ok) := g_json G t val v in (v', if ok : bool then BOk else BErr EJson)
  | TPtr _ | TSlice _ | TArray _ _ | TIface | TOther | TRef _ => (v, BErr EUnknownType)
  end.
(** binding/map_form.go:148-224 setWithProperType2.  The kind passed by both
    callers is the kind of the value. *)
Definition setWithProperType2 (opt : setOptions) (t : gotype) (ro : bool) (val : gostr) (v : goval D) (name : gostr) : goval D * bout :=
  match t with
  | TPtr e =>
      match v with
      | VPtr None =>
          if ro then (v, BPanic ro_panic)
          else let '(w, o) := set_scalar opt (resolve e) ro val (zero (resolve e)) name in (VPtr (Some w), o)
      | VPtr (Some w) => let '(w, o) := set_scalar opt (resolve e) ro val w name in (VPtr (Some w), o)
      | _ => (v, BPanic type_panic)
      end
  | _ => set_scalar opt t ro val v name
  end.

(** binding/map_form.go:105-109: the elements of a slice; the error ends the loop *)
Fixpoint set_elems (opt : setOptions) (e : gotype) (vals : list gostr) (name : gostr) : list (goval D) * bout :=
  match vals with
  | [] => ([], BOk)
  | s :: vals' =>
      match setWithProperType2 opt e false s (zero e) name with
      | (w, BOk) => let '(l, o) := set_elems opt e vals' name in (w :: l, o)
      | (_, o) => ([], o)
      end
  end.

(** binding/map_form.go:85-142 tryToSetValue2 *)
Definition tryToSetValue2 (f : field) (t : gotype) (ro : bool) (v : goval D)
    (form : gmap gostr (list gostr)) (files : gmap gostr (list D)) (tag : gostr) : goval D * bout :=
  let '(name, opt) := parseFormName f tag in
  if seqb name (L "-") then (v, BOk)
  else
    let input := match form !! name with
                 | Some vs => Some vs
                 | None => if negb (seqb (o_default opt) []) then Some [o_default opt] else None
                 end in
    match input with
    | Some vals =>
        match t, vals with
        | TSlice e, _ :: _ =>
            match set_elems opt (resolve e) vals name with
            | (l, BOk) => put ro v (VSlice (Some l))
            | (_, o) => (v, o)
            end
        | _, s :: _ => setWithProperType2 opt t ro s v name
        | _, [] => (v, BPanic (L "index out of range"))
        end
    | None =>
        match files !! name with
        | None => (v, BOk)
        | Some fs =>
            match t, fs with
            | TSlice e, _ :: _ =>
                if file_ptr e then put ro v (VSlice (Some (map (fun d => VPtr (Some (VOpaque d))) fs)))
                else (v, BErr (EFile name))
            | _, _ =>
                if file_ptr t then
                  match fs with
                  | d :: _ => put ro v (VPtr (Some (VOpaque d)))
                  | [] => (v, BPanic (L "index out of range"))
                  end
                else (v, BErr (EFile name))
            end
        end
    end.

(** binding/map_form.go:49-74: one round of the loop of _mapForm.  [rec] is the
    recursive call. *)
Definition field_step (rec : gotype -> goval D -> goval D * bout) (form : gmap gostr (list gostr)) (files : gmap gostr (list D))
    (tag : gostr) (f : field) (t : gotype) (v : goval D) : goval D * bout :=
  if negb (f_exported f) && negb (f_anon f) then (v, BOk)
  else
    let ro := negb (f_exported f) in
    (* map_form.go:65-73 on structField, of type t *)
    let rest t v :=
      let '(v, o) := if (kind_struct t && match t with TTime => false | _ => true end) || f_anon f
                     then rec t v else (v, BOk) in
      match o with
      | BOk => tryToSetValue2 f t ro v form files tag
      | _ => (v, o)
      end in
    match t, v with
    | TPtr e, VPtr None =>
        if negb (file_ptr t) && (f_anon f || kind_struct (resolve e)) then
          if ro then (v, BPanic ro_panic)
          else let '(w, o) := rest (resolve e) (zero (resolve e)) in (VPtr (Some w), o)
        else rest t v
    | _, _ => rest t v
    end.
(** the loop *)
Fixpoint map_fields (rec : gotype -> goval D -> goval D * bout) (form : gmap gostr (list gostr)) (files : gmap gostr (list D))
    (tag : gostr) (fs : list (field * gotype)) (vs : list (goval D)) : list (goval D) * bout :=
  match fs, vs with
  | (f, t) :: fs', v :: vs' =>
      match field_step rec form files tag f t v with
      | (v', BOk) => let '(vs'', o) := map_fields rec form files tag fs' vs' in (v' :: vs'', o)
      | (v', o) => (v' :: vs', o)
      end
  | _, _ => (vs, BOk)
  end.
(** binding/map_form.go:42-77 _mapForm.  [fuel] bounds the depth of the recursion.
    The fields of time.Time are unexported, those of multipart.FileHeader have no
    tag and are not structs: nothing happens to them. *)
Fixpoint _mapForm (fuel : nat) (form : gmap gostr (list gostr)) (files : gmap gostr (list D)) (tag : gostr)
    (t : gotype) (v : goval D) : goval D * bout :=
  match fuel with
  | O => (v, BDiverge)
  | S fuel =>
      let loop t v :=
        match t with
        | TStruct fs =>
            match v with
            | VStruct vs => let '(vs, o) := map_fields (_mapForm fuel form files tag) form files tag fs vs in (VStruct vs, o)
            | _ => (v, BPanic type_panic)
            end
        | TTime | TFile => (v, BOk)
        | _ => (v, BPanic (L "reflect: NumField of non-struct type"))
        end in
      match t with
      | TPtr e =>
          match v with
          | VPtr (Some w) => let '(w, o) := loop (resolve e) w in (VPtr (Some w), o)
          | VPtr None => (v, BPanic (L "reflect: call of reflect.Value.Type on zero Value"))
          | _ => (v, BPanic type_panic)
          end
      | _ => loop t v
      end
  end.

(** ** Maps *)
(** binding/mapping.go:251-253: the loop over the form, in the order in which the
    runtime visits it.  The stored slices share their elements with the form. *)
Definition copy_all (order : list (gostr * list gostr)) (m : gmap gostr (list gostr)) : gmap gostr (list gostr) :=
  fold_left (fun m kv => <[fst kv := snd kv]> m) order m.
(** binding/mapping.go:265-267; v[len(v)-1] panics when there is no value *)
Fixpoint copy_last (order : list (gostr * list gostr)) (m : gmap gostr gostr) : gmap gostr gostr * bout :=
  match order with
  | [] => (m, BOk)
  | (k, v) :: order' =>
      match last v with
      | Some s => copy_last order' (<[k := s]> m)
      | None => (m, BPanic (L "index out of range [-1]"))
      end
  end.
(** binding/mapping.go:240-270 setFormMap2 *)
Definition setFormMap2 (order : list (gostr * list gostr)) (t : gotype) (v : goval D) : goval D * bout :=
  match t, v with
  | TMapL, VMapL m => (VMapL (Some (copy_all order (default ∅ m))), BOk)
  | TMapS, VMapS m => let '(m, o) := copy_last order (default ∅ m) in (VMapS (Some m), o)
  | _, _ => (v, BErr EMap)
  end.

(** an argument of type interface{}: nil, or a type and a value *)
Notation gobj := (option (gotype * goval D)).

(** binding/map_form.go:15-40 MapForm.  [order] lists the entries of the form. *)
Definition MapForm (fuel : nat) (obj : gobj) (form : gmap gostr (list gostr)) (order : list (gostr * list gostr))
    (files : gmap gostr (list D)) (tag : gostr) : gobj * bout :=
  match obj with
  | None => (obj, BErr ENilObj)
  | Some (TPtr e, VPtr None) => (obj, BPanic (L "reflect: call of reflect.Value.Type on zero Value"))
  | Some (TPtr e, VPtr (Some w)) =>
      let te := resolve e in
      let '(w, o) :=
        match te with
        | TMapS | TMapL | TMap true _ => setFormMap2 order te w
        | _ => if kind_struct te then _mapForm fuel form files tag te w else (w, BErr ENeedStruct)
        end in
      (Some (TPtr e, VPtr (Some w)), o)
  | Some _ => (obj, BErr ENeedPtr)
  end.

(** ** binding/validator.go:62-91 ValidateStruct *)
(** binding/validator.go:76-82: the errors of the elements *)
Fixpoint ValidateStruct (t : gotype) (v : goval D) {struct v} : res (option berr) :=
  match v with
  | VIface None => Ok (Some ENilObj)
  | VIface (Some (t, v)) => ValidateStruct t v
  | VPtr None => Panic (L "reflect: call of reflect.Value.Interface on zero Value")
  | VPtr (Some w) => ValidateStruct (match t with TPtr e => resolve e | _ => TOther end) w
  | VStruct _ => Ok (g_struct G t v)
  | VOpaque _ => if kind_struct t then Ok (g_struct G t v) else Ok None
  | VSlice (Some l) | VArray l =>
      let e := match t with TSlice e => resolve e | TArray _ e => e | _ => TOther end in
      let! errs := (fix go (l : list (goval D)) : res (list berr) :=
        match l with
        | [] => Ok []
        | w :: l' =>
            let! r := ValidateStruct e w in
            let! rs := go l' in
            Ok (match r with Some err => err :: rs | None => rs end)
        end) l in
      Ok (match errs with [] => None | _ => Some (EList errs) end)
  | VSlice None | VNum _ | VBool _ | VString _ | VMapS _ | VMapL _ => Ok None
  end.
(** the call on an interface{}; binding/binding.go:56-61 validate with the default
    Validator *)
Definition validate (obj : gobj) : res (option berr) := ValidateStruct TIface (VIface obj).

(** binding/validator.go:13-22 the message of a sliceValidateError, given the
    messages of its elements (none of them is nil); "\010" is a newline *)
Definition slice_error (msgs : list gostr) : gostr :=
  join [Ascii.ascii_of_nat 10] (imap (fun i m => L "[" ++ itoa_nat i ++ L "]: " ++ m) msgs).

(** ** binding/binding.go:34-54 NewBindinger *)
Inductive binder := BJSON | BXML | BForm | BMultipart | BQuery | BHeader.
Definition NewBindinger (method contentType : gostr) : binder :=
  if seqb method (L "GET") then BForm
  else if (seqb method (L "POST") || seqb method (L "PUT") || seqb method (L "PATCH")) && seqb contentType (L "multipart/form-data")
  then BMultipart
  else if seqb contentType (L "application/json") then BJSON
  else if seqb contentType (L "application/xml") || seqb contentType (L "text/xml") then BXML
  else BForm.

(** what the binders read of a request: Request.Form and Request.MultipartForm
    (after parsing), Request.URL.Query(), Request.Header, and what decoding the
    body into a value does (encoding/xml, jsoniter) *)
Record source := mkSource {
  s_form : gmap gostr (list gostr);
  s_mform : gmap gostr (list gostr);
  s_files : gmap gostr (list D);
  s_query : gmap gostr (list gostr);
  s_header : gmap gostr (list gostr);
  s_json : gobj -> gobj * bool;
  s_xml : gobj -> gobj * bool
}.
(** binding/form.go:37-49, 71-83, query.go:22-27, header.go:21-27, json.go:20-32,
    xml.go:15-27: the mapping step of Bind (errors of parsing the form are left
    to the caller: content.go:328-344 panics first) *)
Definition bind_map (fuel : nat) (b : binder) (s : source) (obj : gobj) : gobj * bout :=
  let by_form m files tag := MapForm fuel obj m (map_to_list m) files tag in
  let by_body (d : gobj -> gobj * bool) := let '(o, ok) := d obj in (o, if ok then BOk else BErr EDecode) in
  match b with
  | BForm => by_form (s_form s) ∅ (L "form")
  | BMultipart => by_form (s_mform s) (s_files s) (L "form")
  | BQuery => by_form (s_query s) ∅ (L "form")
  | BHeader => by_form (s_header s) ∅ (L "header")
  | BJSON => by_body (s_json s)
  | BXML => by_body (s_xml s)
  end.
(** the whole of Bind: mapping or decoding, then validation *)
Definition binder_Bind (fuel : nat) (b : binder) (s : source) (obj : gobj) : gobj * bout :=
  match bind_map fuel b s obj with
  | (obj, BOk) =>
      (obj, match validate obj with
            | Ok None => BOk
            | Ok (Some e) => BErr e
            | Panic m => BPanic m
            | Diverge => BDiverge
            end)
  | r => r
  end.
(** binding/uri.go:15-20 *)
Definition uri_Bind (fuel : nat) (m : gmap gostr (list gostr)) (obj : gobj) : gobj * bout :=
  match MapForm fuel obj m (map_to_list m) ∅ (L "uri") with
  | (obj, BOk) =>
      (obj, match validate obj with
            | Ok None => BOk
            | Ok (Some e) => BErr e
            | Panic m => BPanic m
            | Diverge => BDiverge
            end)
  | r => r
  end.
End Binding.
