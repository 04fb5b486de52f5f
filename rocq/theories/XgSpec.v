(* What the characters of a document say: the productions of XML 1.0 and of
   Namespaces in XML 1.0, as relations between texts and trees, apart from any
   reader.  Names are ASCII; there is no document type. *)
From Verif Require Import Base Lit TextSpec XmlModel XtSpec.
Local Open Scope list_scope.

(* ---- characters and names ---- *)
Definition space (c : N) : Prop := c = 32%N \/ c = 9%N \/ c = 10%N.
Definition blank (s : list N) : Prop := Forall space s.
Definition gap (s : list N) : Prop := blank s /\ s <> [].
(* a name, with colons or without *)
Definition word (s : list N) : Prop :=
  match s with c :: s' => name_first c /\ Forall (fun c => name_more c \/ c = 58%N) s' | [] => False end.
Definition within (p s : list N) : Prop := exists u v, s = u ++ p ++ v.

(* ---- references ---- *)
Definition digit_of (base c d : N) : Prop :=
  ((48 <= c <= 57 /\ d = c - 48) \/ (base = 16 /\ (97 <= c <= 102 /\ d = c - 87 \/ 65 <= c <= 70 /\ d = c - 55)))%N.
Inductive numeral (base : N) : list N -> N -> Prop :=
| nu_one : forall c d, digit_of base c d -> numeral base [c] d
| nu_more : forall s n c d, numeral base s n -> digit_of base c d -> numeral base (s ++ [c]) (n * base + d)%N.
Inductive refers : list N -> N -> Prop :=
| re_amp : refers (lit "&amp;") 38
| re_lt : refers (lit "&lt;") 60
| re_gt : refers (lit "&gt;") 62
| re_quot : refers (lit "&quot;") 34
| re_apos : refers (lit "&apos;") 39
| re_dec : forall s c, numeral 10 s c -> xml_char c -> refers (lit "&#" ++ s ++ lit ";") c
| re_hex : forall s c, numeral 16 s c -> xml_char c -> refers (lit "&#x" ++ s ++ lit ";") c.

(* ---- attributes: what is between the quotes [q], and what it says ---- *)
Inductive valued (q : N) : list N -> list N -> Prop :=
| va_nil : valued q [] []
| va_char : forall c s v, xml_char c -> ~ space c -> c <> q -> c <> 60%N -> c <> 38%N -> valued q s v -> valued q (c :: s) (c :: v)
| va_space : forall c s v, space c -> valued q s v -> valued q (c :: s) (32%N :: v)
| va_ref : forall r c s v, refers r c -> valued q s v -> valued q (r ++ s) (c :: v).
Definition quote_mark (q : N) : Prop := q = 34%N \/ q = 39%N.
Inductive attributed : list N -> list (list N * list N) -> Prop :=
| at_nil : attributed [] []
| at_cons : forall g k b b' q r v s a, gap g -> word k -> blank b -> blank b' -> quote_mark q -> valued q r v -> attributed s a ->
    attributed (g ++ k ++ b ++ [61%N] ++ b' ++ [q] ++ r ++ [q] ++ s) ((k, v) :: a).

(* ---- what says nothing ---- *)
Definition comment (s : list N) : Prop :=
  exists b, s = lit "<!--" ++ b ++ lit "-->" /\ Forall xml_char b /\ ~ within (lit "--") (b ++ [45%N]).
Definition xml_reserved (n : list N) : Prop :=
  exists x m l, n = [x; m; l] /\ In x [88; 120]%N /\ In m [77; 109]%N /\ In l [76; 108]%N.
Definition instruction (s : list N) : Prop :=
  exists n b, s = lit "<?" ++ n ++ b ++ lit "?>" /\ nc_name n /\ ~ xml_reserved n /\
    Forall xml_char b /\ (b = [] \/ exists c b', b = c :: b' /\ space c) /\ ~ within (lit "?>") b.

(* ---- elements, and their content: the text in front of the first child, and the children ---- *)
Definition text_said (s : list N) : option (list N) := match s with [] => None | _ => Some s end.
Inductive element : list N -> xml -> Prop :=
| el_empty : forall n s a b, word n -> attributed s a -> NoDup (map fst a) -> blank b ->
    element (lit "<" ++ n ++ s ++ b ++ lit "/>") (Elem n a None [])
| el_full : forall n s a b c t l b', word n -> attributed s a -> NoDup (map fst a) -> blank b -> content c t l -> blank b' ->
    element (lit "<" ++ n ++ s ++ b ++ lit ">" ++ c ++ lit "</" ++ n ++ b' ++ lit ">") (Elem n a (text_said t) l)
with content : list N -> list N -> list xml -> Prop :=
| co_nil : content [] [] []
| co_char : forall c s t l, xml_char c -> c <> 60%N -> c <> 38%N -> (forall r, c :: s <> lit "]]>" ++ r) -> content s t l -> content (c :: s) (c :: t) l
| co_ref : forall r c s t l, refers r c -> content s t l -> content (r ++ s) (c :: t) l
| co_cdata : forall b s t l, Forall xml_char b -> ~ within (lit "]]>") b -> content s t l -> content (lit "<![CDATA[" ++ b ++ lit "]]>" ++ s) (b ++ t) l
| co_comment : forall m s t l, comment m -> content s t l -> content (m ++ s) t l
| co_instruction : forall m s t l, instruction m -> content s t l -> content (m ++ s) t l
| co_child : forall e x s t l, element e x -> content s t l -> content (e ++ s) [] (x :: l).

(* ---- documents ---- *)
Inductive misc : list N -> Prop :=
| mi_nil : misc []
| mi_space : forall c s, space c -> misc s -> misc (c :: s)
| mi_comment : forall m s, comment m -> misc s -> misc (m ++ s)
| mi_instruction : forall m s, instruction m -> misc s -> misc (m ++ s).
Definition letter (c : N) : Prop := (65 <= c <= 90 \/ 97 <= c <= 122)%N.
Definition sign (c : N) : Prop := (letter c \/ 48 <= c <= 57 \/ c = 46 \/ c = 45 \/ c = 95)%N.
Definition setting (w v s : list N) : Prop :=
  exists g b b' q, s = g ++ w ++ b ++ [61%N] ++ b' ++ [q] ++ v ++ [q] /\ gap g /\ blank b /\ blank b' /\ quote_mark q /\ Forall sign v.
Definition declaration (s : list N) : Prop :=
  s = [] \/
  exists v e a b, s = lit "<?xml" ++ v ++ e ++ a ++ b ++ lit "?>" /\
    (exists n, setting (lit "version") n v) /\
    (e = [] \/ exists c n, setting (lit "encoding") (c :: n) e /\ letter c) /\
    (a = [] \/ setting (lit "standalone") (lit "yes") a \/ setting (lit "standalone") (lit "no") a) /\ blank b.
Definition markup (s : list N) (x : xml) : Prop :=
  exists d m e m', s = d ++ m ++ e ++ m' /\ declaration d /\ misc m /\ element e x /\ misc m'.

(* ---- namespaces ---- *)
Definition scope : Type := list N -> option (list N).
Definition xml_space : list N := lit "http://www.w3.org/XML/1998/namespace".
(* an attribute of this name declares this prefix; the empty one is the default *)
Definition declares_prefix (k p : list N) : Prop := (k = lit "xmlns" /\ p = []) \/ k = lit "xmlns:" ++ p.
Definition lawful (p u : list N) : Prop :=
  ~ In 125%N u /\ u <> lit "http://www.w3.org/2000/xmlns/" /\ (p = lit "xml" <-> u = xml_space) /\ p <> lit "xmlns".
Inductive names (sc : scope) : bool -> list N -> list N -> Prop :=
| na_default : forall n u, nc_name n -> sc [] = Some u -> u <> [] -> names sc false n (qname u n)
| na_bare : forall n, nc_name n -> sc [] = None \/ sc [] = Some [] -> names sc false n n
| na_attribute : forall n, nc_name n -> names sc true n n
| na_prefixed : forall b p l u, nc_name p -> nc_name l -> sc p = Some u -> names sc b (p ++ [58%N] ++ l) (qname u l).
Inductive others : list (list N * list N) -> list (list N * list N) -> Prop :=
| ot_nil : others [] []
| ot_declared : forall k u p a r, declares_prefix k p -> others a r -> others ((k, u) :: a) r
| ot_kept : forall k u a r, (forall p, ~ declares_prefix k p) -> others a r -> others ((k, u) :: a) ((k, u) :: r).
Inductive means : scope -> xml -> xml -> Prop :=
| me_elem : forall (sc sc' : scope) t a txt kids t' r a' kids',
    (forall k u p, In (k, u) a -> declares_prefix k p -> lawful p u /\ (k = lit "xmlns" \/ nc_name p /\ u <> []) /\ sc' p = Some u) ->
    (forall p, (forall k u, In (k, u) a -> ~ declares_prefix k p) -> sc' p = sc p) ->
    names sc' false t t' -> others a r -> Forall2 (fun e f => names sc' true (fst e) (fst f) /\ snd e = snd f) r a' -> NoDup (map fst a') ->
    Forall2 (means sc') kids kids' -> means sc (Elem t a txt kids) (Elem t' a' txt kids').
Definition only_xml (sc : scope) : Prop := sc (lit "xml") = Some xml_space /\ forall p, p <> lit "xml" -> sc p = None.

(* ---- texts ---- *)
Definition says (txt : list N) (x : xml) : Prop :=
  exists bom body s y sc, txt = bom ++ body /\ (bom = [] \/ bom = [65279%N]) /\ line_fed body s /\ markup s y /\ only_xml sc /\ means sc y x.
(* the encoding its declaration names, if it does *)
Definition announces (txt n : list N) : Prop :=
  exists bom body s v m e r, txt = bom ++ body /\ (bom = [] \/ bom = [65279%N]) /\ line_fed body s /\
    s = lit "<?xml" ++ v ++ e ++ r /\ setting (lit "version") m v /\ setting (lit "encoding") n e.
Definition utf8_name (n : list N) : Prop :=
  Forall2 (fun c d => c = d \/ (97 <= d <= 122 /\ c = d - 32))%N n (lit "utf-8").
