(** The mapping of the Bind2 methods (binding/mapping.go, and Bind2 of
    binding/form.go, query.go, header.go, uri.go). *)
From Coq Require Import ZArith NArith.
From Verif Require Import Base GoStr Strconv Header Binding.

(** the flags of a reflect.Value: it was obtained through an unexported embedded
    field; it is addressable (not a part of a struct that was passed by value) *)
Record access := mkAccess { a_hidden : bool; a_addr : bool }.
Definition settable : access := mkAccess false true.
Definition fixed : access := mkAccess false false.
(** how a call of mapping ends: (isSetted, nil), or otherwise *)
Inductive mout := MOk (isSetted : bool) | MStop (o : bout).
(** multipart.FileHeader: its exported fields and a header made of them *)
Record filelib (D : Type) := mkFiles {
  x_open : D -> list (goval D);
  x_close : list (goval D) -> D
}.
Arguments mkFiles {D}.
Arguments x_open {D}.
Arguments x_close {D}.
(** mime/multipart: FileHeader{Filename string; Header textproto.MIMEHeader; Size int64; ...},
    without its unexported fields *)
Definition file_fields : list (field * gotype) :=
  [(mkField (L "Filename") true false [], TString); (mkField (L "Header") true false [], TMap true true);
   (mkField (L "Size") true false [], TInt 64)].

(** binding/mapping.go:14 emptyField *)
Definition emptyField : field := mkField [] true false [].
(** binding/mapping.go:26-28 setter: formSource (form.go:85), *multipartForm
    (form.go:94), headerSource (header.go:29) *)
Inductive setter (D : Type) :=
  | SForm (form : gmap gostr (list gostr))
  | SMulti (form : gmap gostr (list gostr)) (files : gmap gostr (list D))
  | SHeader (h : gmap gostr (list gostr)).
Arguments SForm {D}.
Arguments SMulti {D}.
Arguments SHeader {D}.

Section Mapping.
Context {D : Type} (G : golib D) (H : filelib D).

Definition unaddr_panic : gostr := L "reflect: using unaddressable value".
(** reflect.Value.Set and its variants *)
Definition assign (acc : access) (v v' : goval D) : goval D * bout :=
  if a_hidden acc then (v, BPanic ro_panic)
  else if negb (a_addr acc) then (v, BPanic unaddr_panic)
  else (v', BOk).

(** binding/mapping.go:342-391 setIntField, setUintField, setBoolField,
    setFloatField, setTimeDuration.  Kind int is 64 bits wide (bit size 0). *)
Definition setIntField (acc : access) (val : gostr) (w : N) (v : goval D) : goval D * bout :=
  let val := if seqb val [] then L "0" else val in
  match parse_int w val with
  | (z, ErrNone) => assign acc v (VNum z)
  | (_, e) => (v, BErr (ENum e))
  end.
Definition setUintField (acc : access) (val : gostr) (w : N) (v : goval D) : goval D * bout :=
  let val := if seqb val [] then L "0" else val in
  match parse_uint w val with
  | (n, ErrNone) => assign acc v (VNum (Z.of_N n))
  | (_, e) => (v, BErr (ENum e))
  end.
Definition setBoolField (acc : access) (val : gostr) (v : goval D) : goval D * bout :=
  let val := if seqb val [] then L "false" else val in
  match parse_bool val with
  | (b, true) => assign acc v (VBool b)
  | (_, false) => (v, BErr EBool)
  end.
Definition setFloatField (acc : access) (val : gostr) (w : N) (v : goval D) : goval D * bout :=
  let val := if seqb val [] then L "0.0" else val in
  match g_float G w val with
  | Some x => assign acc v (VOpaque x)
  | None => (v, BErr EFloat)
  end.
Definition setTimeDuration (acc : access) (val : gostr) (v : goval D) : goval D * bout :=
  match g_duration G val with
  | Some z => assign acc v (VNum z)
  | None => (v, BErr EDuration)
  end.
(** binding/mapping.go:393-442 setTimeField: as setTimeField2 with the options of
    the struct tag *)
Definition setTimeField (acc : access) (val : gostr) (f : field) (v : goval D) : goval D * bout :=
  match time_value G val (mkOpt [] (tag_get (f_tag f) (L "time_format")) (tag_get (f_tag f) (L "time_utc")) (tag_get (f_tag f) (L "time_location"))) with
  | inl x => assign acc v (VOpaque x)
  | inr e => (v, BErr e)
  end.
(** binding/mapping.go:293-340 setWithProperType.  value.Interface() panics on a
    hidden value, value.Addr() on a fixed one; that value.Interface() is also
    called for fields of kind int64 (not int) before the text is read is left
    out: a hidden one panics here only if the text is a number. *)
Definition setWithProperType (acc : access) (val : gostr) (f : field) (t : gotype) (v : goval D) : goval D * bout :=
  let unmarshal :=
    if a_hidden acc then (v, BPanic ro_panic)
    else if negb (a_addr acc) then (v, BPanic unaddr_panic)
    else let '(v', ok) := g_json G t val v in (v', if ok : bool then BOk else BErr EJson) in
  match t with
  | TInt w => setIntField acc val w v
  | TDuration => if a_hidden acc then (v, BPanic ro_panic) else setTimeDuration acc val v
  | TUint w => setUintField acc val w v
  | TBool => setBoolField acc val v
  | TFloat w => setFloatField acc val w v
  | TString => assign acc v (VString val)
  | TTime => if a_hidden acc then (v, BPanic ro_panic) else setTimeField acc val f v
  | TStruct _ | TFile | TMapS | TMapL | TMap _ _ => unmarshal
  | TPtr _ | TSlice _ | TArray _ _ | TIface | TOther | TRef _ => (v, BErr EUnknownType)
  end.

(** binding/mapping.go:282-291 setArray on elements of type [e]: the texts are not
    more than the elements *)
Fixpoint setArray (acc : access) (f : field) (e : gotype) (vals : list gostr) (l : list (goval D)) : list (goval D) * bout :=
  match vals, l with
  | s :: vals', w :: l' =>
      match setWithProperType acc s f e w with
      | (w', BOk) => let '(l'', o) := setArray acc f e vals' l' in (w' :: l'', o)
      | (w', o) => (w' :: l', o)
      end
  | _ :: _, [] => (l, BPanic (L "reflect: array index out of range"))
  | [], _ => (l, BOk)
  end.
(** binding/mapping.go:272-280 setSlice; the elements of the new slice can be set *)
Definition setSlice (acc : access) (f : field) (e : gotype) (vals : list gostr) (v : goval D) : goval D * bout :=
  match setArray settable f e vals (replicate (length vals) (zero G e)) with
  | (l, BOk) => assign acc v (VSlice (Some l))
  | (_, o) => (v, o)
  end.

(** "return true, err" and the if that follows in mapping (mapping.go:88-94) *)
Definition done (r : goval D * bout) : goval D * mout :=
  let '(v, o) := r in (v, match o with BOk => MOk true | _ => MStop o end).

(** binding/mapping.go:117-148 setByForm *)
Definition setByForm (acc : access) (f : field) (t : gotype) (v : goval D) (form : gmap gostr (list gostr)) (key d : gostr) : goval D * mout :=
  match form !! key, seqb d [] with
  | None, true => (v, MOk false)
  | vs, _ =>
      match t with
      | TSlice e => done (setSlice acc f (resolve G e) (default [d] vs) v)
      | TArray n e =>
          let vs := default [d] vs in
          if negb (length vs =? n) then (v, MStop (BErr ELength))
          else match v with
               | VArray l => let '(l, o) := setArray acc f e vs l in done (VArray l, o)
               | _ => (v, MStop (BPanic type_panic))
               end
      | _ =>
          let val := match vs with None => d | Some [] => [] | Some (s :: _) => s end in
          done (setWithProperType acc val f t v)
      end
  end.

(** binding/mapping.go:150-176 setByMultipartFormFile on a value that is no slice
    and no array; [d] is the first file *)
Definition set_file (acc : access) (d : D) (t : gotype) (v : goval D) : goval D * bout :=
  match t with
  | TPtr e =>
      if a_hidden acc then (v, BPanic ro_panic)
      else match resolve G e with
           | TFile => assign acc v (VPtr (Some (VOpaque d)))
           | _ => (v, BErr EFileType)
           end
  | TStruct _ | TTime => if a_hidden acc then (v, BPanic ro_panic) else (v, BErr EFileType)
  | TFile => assign acc v (VOpaque d)
  | _ => (v, BErr EFileType)
  end.
(** binding/mapping.go:178-189 the loop of setArrayOfMultipartFormFiles; [set] is
    setByMultipartFormFile on an element and one file *)
Fixpoint each_file (set : D -> goval D -> goval D * bout) (files : list D) (l : list (goval D)) : list (goval D) * bout :=
  match files, l with
  | d :: files', w :: l' =>
      match set d w with
      | (w', BOk) => let '(l'', o) := each_file set files' l' in (w' :: l'', o)
      | (w', o) => (w' :: l', o)
      end
  | _, _ => (l, BOk)
  end.
(** binding/mapping.go:150-189 setByMultipartFormFile and
    setArrayOfMultipartFormFiles.  [fuel] bounds the depth of slices in slices. *)
Fixpoint setByMultipartFormFile (fuel : nat) (acc : access) (files : list D) (t : gotype) (v : goval D) : goval D * bout :=
  match fuel with
  | O => (v, BDiverge)
  | S fuel =>
      match t with
      | TSlice e =>
          match each_file (fun d => setByMultipartFormFile fuel settable [d] (resolve G e)) files
                  (replicate (length files) (zero G (resolve G e))) with
          | (l, BOk) => assign acc v (VSlice (Some l))
          | (_, o) => (v, o)
          end
      | TArray n e =>
          if negb (n =? length files) then (v, BErr ELength)
          else match v with
               | VArray l => let '(l, o) := each_file (fun d => setByMultipartFormFile fuel acc [d] e) files l in (VArray l, o)
               | _ => (v, BPanic type_panic)
               end
      | _ => match files with
             | d :: _ => set_file acc d t v
             | [] => (v, BPanic (L "index out of range"))
             end
      end
  end.

(** TrySet of binding/form.go:90-92, 99-105 and header.go:33-35 *)
Definition TrySet (fuel : nat) (s : setter D) (acc : access) (f : field) (t : gotype) (v : goval D) (key d : gostr) : goval D * mout :=
  match s with
  | SForm form => setByForm acc f t v form key d
  | SMulti form files =>
      match default [] (files !! key) with
      | [] => setByForm acc f t v form key d
      | fs => done (setByMultipartFormFile fuel acc fs t v)
      end
  | SHeader h => setByForm acc f t v h (canon key) d
  end.

(** binding/mapping.go:38-62 tryToSetValue *)
Definition tryToSetValue (fuel : nat) (s : setter D) (tag : gostr) (acc : access) (f : field) (t : gotype) (v : goval D) : goval D * mout :=
  let '(name, tail) := head "," (tag_get (f_tag f) tag) in
  let key := if seqb name [] then f_name f else name in
  if seqb key [] then (v, MOk false)
  else TrySet fuel s acc f t v key (default_opt tail).

(** the fields of a struct, and the struct with other values in them.  time.Time
    has unexported fields only *)
Definition members (t : gotype) (v : goval D) : option (list (field * gotype) * list (goval D)) :=
  match t, v with
  | TStruct fs, VStruct vs => Some (fs, vs)
  | TTime, VOpaque _ => Some ([], [])
  | TFile, VOpaque d => Some (file_fields, x_open H d)
  | _, _ => None
  end.
Definition with_members (t : gotype) (v : goval D) (vs : list (goval D)) : goval D :=
  match t with
  | TStruct _ => VStruct vs
  | TFile => VOpaque (x_close H vs)
  | _ => v
  end.
(** binding/mapping.go:101-112 the loop over the fields; [rec] is mapping on a
    field.  A field of a value that cannot be addressed cannot be addressed
    either; an unexported embedded struct does not hide its exported fields. *)
Fixpoint walk_fields (rec : access -> field -> gotype -> goval D -> goval D * mout) (acc : access)
    (fs : list (field * gotype)) (vs : list (goval D)) : list (goval D) * mout :=
  match fs, vs with
  | (f, t) :: fs', v :: vs' =>
      if negb (f_exported f) && negb (f_anon f) then
        let '(vs'', o) := walk_fields rec acc fs' vs' in (v :: vs'', o)
      else
        match rec (mkAccess (negb (f_exported f)) (a_addr acc)) f t v with
        | (v', MOk b) =>
            let '(vs'', o) := walk_fields rec acc fs' vs' in
            (v' :: vs'', match o with MOk b' => MOk (b || b') | _ => o end)
        | (v', o) => (v' :: vs', o)
        end
  | _, _ => (vs, MOk false)
  end.
(** binding/mapping.go:64-115 mapping.  [fuel] bounds the depth of the recursion.
    A pointer's target can be set, but stays hidden. *)
Fixpoint mapping (fuel : nat) (s : setter D) (tag : gostr) (acc : access) (f : field) (t : gotype) (v : goval D) : goval D * mout :=
  match fuel with
  | O => (v, MStop BDiverge)
  | S fuel =>
      if seqb (tag_get (f_tag f) tag) (L "-") then (v, MOk false)
      else match t with
      | TPtr e =>
          match v with
          | VPtr None =>
              match mapping fuel s tag settable f (resolve G e) (zero G (resolve G e)) with
              | (w, MOk true) => let '(v', o) := assign acc v (VPtr (Some w)) in done (v', o)
              | (_, o) => (v, o)
              end
          | VPtr (Some w) =>
              let '(w', o) := mapping fuel s tag (mkAccess (a_hidden acc) true) f (resolve G e) w in
              (VPtr (Some w'), o)
          | _ => (v, MStop (BPanic type_panic))
          end
      | _ =>
          match (if kind_struct t && f_anon f then (v, MOk false) else tryToSetValue fuel s tag acc f t v) with
          | (v, MOk false) =>
              if kind_struct t then
                match members t v with
                | Some (fs, vs) =>
                    let '(vs', o) := walk_fields (mapping fuel s tag) acc fs vs in (with_members t v vs', o)
                | None => (v, MStop (BPanic type_panic))
                end
              else (v, MOk false)
          | r => r
          end
      end
  end.

(** ** Whole calls *)
(** an argument of type interface{}: nil, or a type and a value *)
Notation gobj := (option (gotype * goval D)).
Definition outcome (m : mout) : bout := match m with MOk _ => BOk | MStop o => o end.
(** mapping(reflect.ValueOf(obj), emptyField, ...).  reflect.ValueOf(nil) is of no
    kind: nothing happens (mapping.go:88-95, 47-49, 114). *)
Definition map_obj (fuel : nat) (s : setter D) (tag : gostr) (obj : gobj) : gobj * bout :=
  match obj with
  | None => (None, BOk)
  | Some (t, v) => let '(v', o) := mapping fuel s tag fixed emptyField t v in (Some (t, v'), outcome o)
  end.
(** binding/mapping.go:214-238 setFormMap on a map of type [t]; maps are references *)
Definition setFormMap (order : list (gostr * list gostr)) (t : gotype) (v : goval D) : goval D * bout :=
  let nil_map := L "assignment to entry in nil map" in
  match t, v with
  | TMapL, VMapL (Some m) => (VMapL (Some (copy_all order m)), BOk)
  | TMapS, VMapS (Some m) => let '(m, o) := copy_last order m in (VMapS (Some m), o)
  | TMapL, VMapL None => (v, match order with [] => BOk | _ => BPanic nil_map end)
  | TMapS, VMapS None =>
      (v, match order with
          | [] => BOk
          | (_, []) :: _ => BPanic (L "index out of range [-1]")
          | _ => BPanic nil_map
          end)
  | _, _ => (v, BErr EMap)
  end.
(** binding/mapping.go:191-211 mapFormByTag.  [order] lists the entries of the form. *)
Definition string_map (t : gotype) : bool :=
  match t with TMapS | TMapL | TMap true _ => true | _ => false end.
Definition mapFormByTag (fuel : nat) (obj : gobj) (form : gmap gostr (list gostr)) (order : list (gostr * list gostr)) (tag : gostr) : gobj * bout :=
  match obj with
  | Some (TPtr e, VPtr None) => (obj, BPanic (L "reflect: call of reflect.Value.Interface on zero Value"))
  | Some (TPtr e, VPtr (Some w)) =>
      if string_map (resolve G e) then
        let '(w', o) := setFormMap order (resolve G e) w in (Some (TPtr e, VPtr (Some w')), o)
      else map_obj fuel (SForm form) tag obj
  | Some (t, v) =>
      if string_map t then let '(v', o) := setFormMap order t v in (Some (t, v'), o)
      else map_obj fuel (SForm form) tag obj
  | None => map_obj fuel (SForm form) tag obj
  end.

(** validation after a successful mapping *)
Definition and_validate (r : gobj * bout) : gobj * bout :=
  match r with
  | (obj, BOk) =>
      (obj, match validate G obj with
            | Ok None => BOk
            | Ok (Some e) => BErr e
            | Panic m => BPanic m
            | Diverge => BDiverge
            end)
  | _ => r
  end.
(** binding/form.go:23-35, 57-69, query.go:13-18, header.go:15-20: Bind2 on the
    parts of a request (errors of parsing the form are left to the caller, as for
    Bind); the decoders of bodies have no Bind2 *)
Inductive binder2 := B2Form | B2Multipart | B2Query | B2Header.
Definition binder_Bind2 (fuel : nat) (b : binder2) (r : source (D:=D)) (obj : gobj) : gobj * bout :=
  and_validate
    match b with
    | B2Form => mapFormByTag fuel obj (s_form r) (map_to_list (s_form r)) (L "form")
    | B2Multipart => map_obj fuel (SMulti (s_mform r) (s_files r)) (L "form") obj
    | B2Query => mapFormByTag fuel obj (s_query r) (map_to_list (s_query r)) (L "form")
    | B2Header => map_obj fuel (SHeader (s_header r)) (L "header") obj
    end.
(** binding/uri.go:9-14 *)
Definition uri_Bind2 (fuel : nat) (m : gmap gostr (list gostr)) (obj : gobj) : gobj * bout :=
  and_validate (mapFormByTag fuel obj m (map_to_list m) (L "uri")).
End Mapping.
