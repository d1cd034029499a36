(** params.go, query.go, cookie.go: the getters of a Context. *)
From Verif Require Import Base GoStr Strconv Pattern Tree Header Router Ctx Util.

(** ** params.go *)
(** params.go:23-29 String; [p] None is a nil map *)
Definition Params_String (p : option Params) (name : gostr) : res gostr :=
  match p ≫= (.!! name) with
  | Some v => Ok v
  | None => Panic (L "Params not exist: " ++ name)
  end.
(** params.go:32-53 Bool, Int, Int64, Uint, Uint64: the value and the error.
    Float64 is below. *)
Definition Params_Bool p name : res (bool * bool) := let! s := Params_String p name in Ok (parse_bool s).
Definition Params_Int p name : res (Z * numerr) := let! s := Params_String p name in Ok (atoi s).
Definition Params_Int64 p name : res (Z * numerr) := let! s := Params_String p name in Ok (parse_int 64 s).
(** params.go:47-50 Uint: uint(v) is the identity on a 64-bit platform *)
Definition Params_Uint p name : res (N * numerr) := let! s := Params_String p name in Ok (parse_uint 64 s).
Definition Params_Uint64 p name : res (N * numerr) := let! s := Params_String p name in Ok (parse_uint 64 s).
(** params.go:60-88 MustBool, MustInt, MustInt64, MustUint, MustUint64 *)
Definition MustBool p name : res bool := let! v := Params_Bool p name in Ok (fst v).
Definition MustInt p name : res Z := let! v := Params_Int p name in Ok (fst v).
Definition MustInt64 p name : res Z := let! v := Params_Int64 p name in Ok (fst v).
Definition MustUint p name : res N := let! v := Params_Uint p name in Ok (fst v).
Definition MustUint64 p name : res N := let! v := Params_Uint64 p name in Ok (fst v).

(** ** query.go: functions of Request.Form (None: nil) after parsing.
    The call of ParseFormOrMultipartForm is [q_prog] below. *)
Notation form := (option (gmap gostr (list gostr))).
(** the map operation Form[name] *)
Definition form_at (f : form) (name : gostr) : list gostr :=
  match f ≫= (.!! name) with Some vs => vs | None => [] end.
(** url.Values.Get *)
Definition form_get (f : form) (name : gostr) : gostr := match form_at f name with v :: _ => v | [] => [] end.

(** query.go:8-17 queryExist *)
Definition queryExist (f : form) (name : gostr) : bool :=
  match f with
  | None => false
  | Some _ => if (length (form_at f name) =? 0)%nat then false else true
  end.
(** query.go:22-30 Query *)
Definition Query (f : form) (name : gostr) : gostr :=
  if negb (queryExist f name) then [] else trim_space (form_get f name).
(** query.go:33-60 QueryBool, QueryInt, QueryInt64, QueryUint, QueryUint64 *)
Definition QueryBool f name : bool := fst (parse_bool (Query f name)).
Definition QueryInt f name : Z := fst (atoi (Query f name)).
Definition QueryInt64 f name : Z := fst (parse_int 64 (Query f name)).
Definition QueryUint f name : N := fst (parse_uint 64 (Query f name)).
Definition QueryUint64 f name : N := fst (parse_uint 64 (Query f name)).
(** query.go:69-83 QueryArray; None is a nil slice *)
Definition QueryArray (f : form) (name : gostr) : option (list gostr) :=
  if negb (queryExist f name) then None else Some (map trim_space (form_at f name)).
(** query.go:94-100: whether a form name belongs to key, and the map key it has *)
Definition map_key (key k : gostr) : option gostr :=
  match index_byte "[" k with
  | Some i =>
      if (1 <=? i)%nat && seqb (take i k) key then
        match index_byte "]" (drop (S i) k) with
        | Some j => if (1 <=? j)%nat then Some (take j (drop (S i) k)) else None
        | None => None
        end
      else None
  | None => None
  end.
(** query.go:94-100 and 180-188: the loop over the entries of the form, in the
    order in which the runtime happens to visit them; v[0] panics when there is
    no value *)
Fixpoint map_loop (order : list (gostr * list gostr)) (key : gostr) (dicts : gmap gostr gostr) (exist : bool)
    : res (gmap gostr gostr * bool) :=
  match order with
  | [] => Ok (dicts, exist)
  | (k, v) :: order' =>
      match map_key key k with
      | Some x =>
          match v with
          | v0 :: _ => map_loop order' key (<[x := trim_space v0]> dicts) true
          | [] => Panic (L "runtime error: index out of range")
          end
      | None => map_loop order' key dicts exist
      end
  end.
(** the possible iteration orders of a form *)
Definition visits (f : form) (order : list (gostr * list gostr)) : Prop :=
  order ≡ₚ match f with Some m => map_to_list m | None => [] end.
(** query.go:89-103 QueryMap *)
Definition QueryMap (order : list (gostr * list gostr)) (key : gostr) : res (gmap gostr gostr) :=
  let! (dicts, _) := map_loop order key ∅ false in Ok dicts.
(** query.go:108-116 DefaultQuery *)
Definition DefaultQuery (f : form) (name d : gostr) : gostr :=
  if negb (queryExist f name) then d else trim_space (form_get f name).
(** query.go:119-146 DefaultQueryBool, ... *)
Definition DefaultQueryBool f name d : bool := fst (parse_bool (DefaultQuery f name d)).
Definition DefaultQueryInt f name d : Z := fst (atoi (DefaultQuery f name d)).
Definition DefaultQueryInt64 f name d : Z := fst (parse_int 64 (DefaultQuery f name d)).
Definition DefaultQueryUint f name d : N := fst (parse_uint 64 (DefaultQuery f name d)).
Definition DefaultQueryUint64 f name d : N := fst (parse_uint 64 (DefaultQuery f name d)).
(** query.go:155-168 DefaultQueryArray *)
Definition DefaultQueryArray (f : form) (name : gostr) (d : option (list gostr)) : option (list gostr) :=
  match f ≫= (.!! name) with
  | None => d
  | Some vs => Some (map trim_space vs)
  end.
(** query.go:171-192 DefaultQueryMap *)
Definition DefaultQueryMap (order : list (gostr * list gostr)) (key : gostr) (d : gmap gostr gostr) : res (gmap gostr gostr) :=
  let! (dicts, found) := map_loop order key ∅ false in
  Ok (if negb found then d else dicts).

(** the call of a query getter g by a handler: query.go:23,70,90,109,156,172 *)
Definition q_prog {V X} (g : form -> X) (k : X -> prog V) : prog V :=
  PDo OParseForm (fun _ => PDo OForm (fun f => k (g f))).

(** ** cookie.go *)
(** http.Request.Cookie: None when there is no such cookie (net/http) *)
Section Cookie.
Variable cookie_of : request -> gostr -> option gostr.
(** cookie.go:9-16 Cookie *)
Definition Cookie (r : request) (name : gostr) : gostr :=
  match cookie_of r name with Some v => v | None => [] end.
(** cookie.go:18-20 CookieEscape *)
Definition CookieEscape (r : request) (name : gostr) : gostr := HTMLEscapeString (Cookie r name).
(** cookie.go:22-45 CookieBool, CookieInt, CookieInt64, CookieUint, CookieUint64 *)
Definition CookieBool r name : bool := fst (parse_bool (Cookie r name)).
Definition CookieInt r name : Z := fst (atoi (Cookie r name)).
Definition CookieInt64 r name : Z := fst (parse_int 64 (Cookie r name)).
Definition CookieUint r name : N := fst (parse_uint 64 (Cookie r name)).
Definition CookieUint64 r name : N := fst (parse_uint 64 (Cookie r name)).
End Cookie.

(** ** Floating-point numbers *)
(** [parse_float s]: strconv.ParseFloat(s, 64), the number and whether there is no
    error; F stands for float64 *)
Section Float.
Context {F : Type}.
Variable parse_float : gostr -> F * bool.
(** params.go:55-58 Float64 *)
Definition Params_Float64 p name : res (F * bool) := let! s := Params_String p name in Ok (parse_float s).
(** params.go:90-94 MustFloat64 *)
Definition MustFloat64 p name : res F := let! v := Params_Float64 p name in Ok (fst v).
(** query.go:62-66 QueryFloat64 *)
Definition QueryFloat64 (f : form) name : F := fst (parse_float (Query f name)).
(** query.go:148-152 DefaultQueryFloat64 *)
Definition DefaultQueryFloat64 (f : form) name d : F := fst (parse_float (DefaultQuery f name d)).
(** cookie.go:47-50 CookieFloat64 *)
Definition CookieFloat64 cookie_of r name : F := fst (parse_float (Cookie cookie_of r name)).
End Float.

(** the values an interface{} argument of SetCookie can hold, as far as its type
    switches distinguish them *)
Inductive dyn :=
  | DNil
  | DInt (z : Z) | DInt32 (z : Z) | DInt64 (z : Z)
  | DStr (s : gostr)
  | DBool (b : bool)
  | DSameSite (n : Z)
  | DOther.
(** the fields of http.Cookie that SetCookie sets *)
Record cookie := mkCookie {
  ck_name : gostr; ck_value : gostr;
  ck_maxage : Z; ck_path : gostr; ck_domain : gostr;
  ck_secure : bool; ck_httponly : bool; ck_samesite : Z
}.
(** cookie.go:56-108 SetCookie: the cookie that is added to the response (its
    rendering, http.Cookie.String, is left out) *)
Definition SetCookie (name value : gostr) (others : list dyn) : cookie :=
  {| ck_name := name;
     ck_value := value;
     ck_maxage := match others !! 0%nat with
                  | Some (DInt v) | Some (DInt32 v) | Some (DInt64 v) => v
                  | _ => 0%Z
                  end;
     ck_path := match others !! 1%nat with
                | Some (DStr v) => if (0 <? length v)%nat then v else L "/"
                | _ => L "/"
                end;
     ck_domain := match others !! 2%nat with
                  | Some (DStr v) => if (0 <? length v)%nat then v else []
                  | _ => []
                  end;
     ck_secure := match others !! 3%nat with
                  | Some (DBool v) => v
                  | Some DNil => false
                  | Some _ => true
                  | None => false
                  end;
     ck_httponly := match others !! 4%nat with
                    | Some (DBool true) => true
                    | _ => false
                    end;
     ck_samesite := match others !! 5%nat with
                    | Some (DSameSite v) => v
                    | _ => 0%Z
                    end |}.
