(** Specification of cookies: what a user agent does with a Set-Cookie line
    (RFC 6265, 5.2 and 5.4), and which bytes cookies can carry (4.1.1). *)
From Verif Require Import Base GoStr Strconv Tree Header Router Ctx Util Getters UtilSpec RequestSpec.
Local Open Scope Z_scope.

(** ** RFC 6265, 5.2: reading a Set-Cookie line *)
(** before and after the first occurrence of a byte *)
Fixpoint cut_at (c : ascii) (s : gostr) : gostr * option gostr :=
  match s with
  | [] => ([], None)
  | a :: s => if decide (a = c) then ([], Some s) else let '(x, y) := cut_at c s in (a :: x, y)
  end.
(** all pieces between occurrences of a byte *)
Fixpoint pieces (c : ascii) (s : gostr) : list gostr :=
  match s with
  | [] => [[]]
  | a :: s => if decide (a = c) then [] :: pieces c s
              else match pieces c s with x :: l => (a :: x) :: l | [] => [[a]] end
  end.
(** without spaces and tabs at both ends *)
Definition blank (a : ascii) : bool := bool_decide (a = " "%char \/ a = "009"%char).
Fixpoint lstrip (s : gostr) : gostr := match s with a :: s' => if blank a then lstrip s' else s | [] => [] end.
Definition strip (s : gostr) : gostr := rev (lstrip (rev (lstrip s))).
(** an attribute: its name and value *)
Definition ua_attr (s : gostr) : gostr * gostr :=
  let '(n, v) := cut_at "=" s in (strip n, match v with Some v => strip v | None => [] end).
(** a line: name, value and attributes; None: it is ignored *)
Definition ua_read (line : gostr) : option (gostr * gostr * list (gostr * gostr)) :=
  match pieces ";" line with
  | [] => None
  | p :: attrs =>
      match cut_at "=" p with
      | (n, Some v) => if decide (strip n = []) then None else Some (strip n, strip v, map ua_attr attrs)
      | (_, None) => None
      end
  end.
(** ** 5.4: the Cookie line for a list of cookies *)
Definition pair_text (c : gostr * gostr) : gostr := c.1 ++ L "=" ++ c.2.
Fixpoint cookie_line (cs : list (gostr * gostr)) : gostr :=
  match cs with
  | [] => []
  | [c] => pair_text c
  | c :: cs => pair_text c ++ L "; " ++ cookie_line cs
  end.
(** cookies as user agents keep them after 5.2, with a name in printable ASCII *)
Definition storable (c : gostr * gostr) : Prop :=
  c.1 <> [] /\ strip c.1 = c.1 /\ strip c.2 = c.2 /\ "="%char ∉ c.1 /\ ";"%char ∉ c.1 /\ ";"%char ∉ c.2 /\
  Forall (fun a => (32 <= N_of_ascii a < 127)%N) c.1.

(** ** What cookies can carry *)
(** printable ASCII but for quotation mark, semicolon and backslash *)
Definition carried (a : ascii) : Prop := (32 <= N_of_ascii a < 127)%N /\ a <> """"%char /\ a <> ";"%char /\ a <> "\"%char.
(** in a path: printable ASCII but for the semicolon *)
Definition path_char (a : ascii) : Prop := (32 <= N_of_ascii a < 127)%N /\ a <> ";"%char.
(** w: v without the bytes that are not P *)
Inductive kept (P : ascii -> Prop) : gostr -> gostr -> Prop :=
  | kept_nil : kept P [] []
  | kept_yes a v w : P a -> kept P v w -> kept P (a :: v) (a :: w)
  | kept_no a v w : ~ P a -> kept P v w -> kept P (a :: v) w.
(** names of cookies *)
Definition cookie_name (n : gostr) : Prop := n <> [] /\ is_token n.

(** ** Domains: labels of at most 63 letters, digits and inner hyphens between dots,
    perhaps after a first dot and before a last one, with a letter somewhere, 255 bytes
    in all; or a dotted quad *)
Definition letter (a : ascii) : Prop := (97 <= N_of_ascii a <= 122 \/ 65 <= N_of_ascii a <= 90)%N.
Definition cipher (a : ascii) : Prop := (48 <= N_of_ascii a <= 57)%N.
Definition label (s : gostr) : Prop :=
  s <> [] /\ (length s <= 63)%nat /\ Forall (fun a => letter a \/ cipher a \/ a = "-"%char) s /\
  head s <> Some "-"%char /\ last s <> Some "-"%char.
Definition host_name (s : gostr) : Prop :=
  exists ls l, s = concat (map (fun x => x ++ L ".") ls) ++ l /\ Forall label ls /\ (l = [] \/ label l) /\ Exists letter s.
(** a number as it stands in a dotted quad *)
Fixpoint number_value (n : N) (s : gostr) : N :=
  match s with [] => n | a :: s => number_value (n * 10 + (N_of_ascii a - 48))%N s end.
Definition octet (s : gostr) : Prop := s <> [] /\ Forall cipher s /\ (number_value 0 s <= 255)%N.
Definition dotted_quad (s : gostr) : Prop :=
  exists a b c d, s = a ++ L "." ++ b ++ L "." ++ c ++ L "." ++ d /\ octet a /\ octet b /\ octet c /\ octet d.
Definition without_dot (s : gostr) : gostr := match s with a :: s' => if decide (a = "."%char) then s' else s | [] => [] end.
Definition good_domain (s : gostr) : Prop :=
  ((length s <= 255)%nat /\ host_name (without_dot s)) \/ dotted_quad s.

(** ** The attributes that a cookie asks for *)
Definition age_attr (n : Z) (l : list (gostr * gostr)) : Prop :=
  (n = 0 /\ l = []) \/ (n < 0 /\ l = [(L "Max-Age", L "0")]) \/ (0 < n /\ exists t, udecimal t n /\ l = [(L "Max-Age", t)]).
Definition path_attr (p : gostr) (l : list (gostr * gostr)) : Prop :=
  (p = [] /\ l = []) \/ (p <> [] /\ exists q, kept path_char p q /\ l = [(L "Path", strip q)]).
Definition domain_attr (d : gostr) (l : list (gostr * gostr)) : Prop :=
  (good_domain d /\ l = [(L "Domain", without_dot d)]) \/ (~ good_domain d /\ l = []).
Definition site_attr (n : Z) (l : list (gostr * gostr)) : Prop :=
  (n = 2 /\ l = [(L "SameSite", L "Lax")]) \/ (n = 3 /\ l = [(L "SameSite", L "Strict")]) \/
  (n = 4 /\ l = [(L "SameSite", L "None")]) \/ (n <> 2 /\ n <> 3 /\ n <> 4 /\ l = []).
Definition asked (c : cookie) (l : list (gostr * gostr)) : Prop :=
  exists lp ld la ls, path_attr (ck_path c) lp /\ domain_attr (ck_domain c) ld /\ age_attr (ck_maxage c) la /\ site_attr (ck_samesite c) ls /\
  l = lp ++ ld ++ la ++ (if ck_httponly c then [(L "HttpOnly", [])] else []) ++ (if ck_secure c then [(L "Secure", [])] else []) ++ ls.
