(* Element trees as text: ElementTree.tostring(x, encoding="utf-8", method="xml"),
   with which messages (/repo/src/pypsrp/messages.py:134), request envelopes
   (wsman.py:491) and trees given to the deserializer (serializer.py:185) are
   written, and ElementTree.fromstring, with which messages (serializer.py:180)
   and responses (wsman.py:511, 544, 626 and client.py:312) are read.

   Both belong to Python (xml.etree.ElementTree of Python 3.10 or later, and
   expat under it), not to the library: they are modelled because everything
   the library sends and understands goes through them.  What is simplified:
   - only ASCII names are accepted (expat takes letters of other scripts too);
   - a document type is refused (expat reads it).  Nothing that the library
     writes contains one;
   - text after the end tag of a child is dropped (Element.tail), as [xml] has
     no place for it;
   - every error is the same (ET.ParseError): here [None]. *)
From Verif Require Import Base Lit NumModel TextModel Utf8Model XmlModel.

(* ---------------- writing ---------------- *)

(* ElementTree._escape_cdata: & < and > as entities.  (The successive
   str.replace calls start with &, so they act character by character.) *)
Definition esc_text_char (c : N) : list N :=
  if N.eqb c 38 then lit "&amp;" else if N.eqb c 60 then lit "&lt;" else if N.eqb c 62 then lit "&gt;" else [c].
Definition esc_text (s : list N) : list N := flat_map esc_text_char s.

(* ElementTree._escape_attrib: also the quote, and the characters that a parser
   would turn into spaces *)
Definition esc_attr_char (c : N) : list N :=
  if N.eqb c 38 then lit "&amp;" else if N.eqb c 60 then lit "&lt;" else if N.eqb c 62 then lit "&gt;"
  else if N.eqb c 34 then lit "&quot;"
  else if N.eqb c 13 then lit "&#13;" else if N.eqb c 10 then lit "&#10;" else if N.eqb c 9 then lit "&#09;" else [c].
Definition esc_attr (s : list N) : list N := flat_map esc_attr_char s.

Definition quote : list N := [34%N].
Definition show_attr (kv : list N * list N) : list N :=
  lit " " ++ fst kv ++ lit "=" ++ quote ++ esc_attr (snd kv) ++ quote.

(* ElementTree._serialize_xml, names already in their final form *)
Fixpoint show (x : xml) : list N :=
  match x with
  | Elem t a txt kids =>
      let body := match txt with Some s => s | None => [] end in
      lit "<" ++ t ++ flat_map show_attr a ++
      match body, kids with
      | [], [] => lit " />"
      | _, _ => lit ">" ++ esc_text body ++ flat_map show kids ++ lit "</" ++ t ++ lit ">"
      end
  end.

(* qname[1:].rsplit("}", 1) of a name that starts with "{" *)
Fixpoint rsplit_brace (s : list N) : option (list N * list N) :=
  match s with
  | [] => None
  | c :: s' =>
      match rsplit_brace s' with
      | Some (u, l) => Some (c :: u, l)
      | None => if N.eqb c 125 then Some ([], s') else None
      end
  end.
Definition in_namespace (n : list N) : option (list N * list N) :=
  match n with
  | c :: n' => if N.eqb c 123 then rsplit_brace n' else None
  | [] => None
  end.

(* The registry of prefixes: ElementTree._namespace_map, uri -> prefix. *)
Definition xml_uri : list N := lit "http://www.w3.org/XML/1998/namespace".
Definition xmlns_uri : list N := lit "http://www.w3.org/2000/xmlns/".

(* ElementTree._namespaces.add_qname: the namespaces of the document so far,
   uri -> prefix, grow by that of one more name. *)
Definition add_name (reg : list (list N * list N)) (ns : list (list N * list N)) (n : list N) : list (list N * list N) :=
  match in_namespace n with
  | None => ns
  | Some (uri, _) =>
      match dict_get str_eqb uri ns with
      | Some _ => ns
      | None =>
          let prefix := match dict_get str_eqb uri reg with Some p => p | None => lit "ns" ++ dec (N.of_nat (length ns)) end in
          if str_eqb prefix (lit "xml") then ns else ns ++ [(uri, prefix)]
      end
  end.

(* the names of a tree in document order *)
Fixpoint names_of (x : xml) : list (list N) :=
  match x with Elem t a _ kids => t :: map fst a ++ flat_map names_of kids end.
Definition namespaces (reg : list (list N * list N)) (x : xml) : list (list N * list N) :=
  fold_left (add_name reg) (names_of x) [].

(* The text of a name.  (The code fills a table while it collects namespaces;
   an entry never changes afterwards, so the final table gives the same.) *)
Definition prefix_of (reg ns : list (list N * list N)) (uri : list N) : list N :=
  match dict_get str_eqb uri ns with
  | Some p => p
  | None => match dict_get str_eqb uri reg with Some p => p | None => [] end
  end.
Definition qualified (reg ns : list (list N * list N)) (n : list N) : list N :=
  match in_namespace n with
  | None => n
  | Some (uri, local) =>
      match prefix_of reg ns uri with
      | [] => local
      | p => p ++ lit ":" ++ local
      end
  end.
Fixpoint qualify (reg ns : list (list N * list N)) (x : xml) : xml :=
  match x with
  | Elem t a txt kids =>
      Elem (qualified reg ns t) (map (fun kv => (qualified reg ns (fst kv), snd kv)) a) txt (map (qualify reg ns) kids)
  end.

(* sorted(namespaces.items(), key=lambda x: x[1]) *)
Fixpoint str_leb (a b : list N) : bool :=
  match a, b with
  | [], _ => true
  | _ :: _, [] => false
  | x :: a', y :: b' => (N.ltb x y || (N.eqb x y && str_leb a' b'))%bool
  end.
Fixpoint insert_by (e : list N * list N) (l : list (list N * list N)) : list (list N * list N) :=
  match l with
  | [] => [e]
  | f :: l' => if str_leb (snd f) (snd e) then f :: insert_by e l' else e :: l
  end.
Definition sort_by_prefix (l : list (list N * list N)) : list (list N * list N) := fold_left (fun acc e => insert_by e acc) l [].

(* " xmlns%s=..." with ":" + prefix, or nothing for the empty prefix *)
Definition declaration (e : list N * list N) : list N * list N :=
  (match snd e with [] => lit "xmlns" | p => lit "xmlns:" ++ p end, fst e).
Definition declared (reg : list (list N * list N)) (x : xml) : xml :=
  let ns := namespaces reg x in
  match qualify reg ns x with
  | Elem t a txt kids => Elem t (map declaration (sort_by_prefix ns) ++ a) txt kids
  end.

(* ElementTree.tostring, before the encoding.  A tag that starts with "{" and has
   no "}" raises ValueError in the code; [qualified] leaves it alone. *)
Definition xml_print (reg : list (list N * list N)) (x : xml) : list N := show (declared reg x).

(* errors="xmlcharrefreplace" of the writer: what utf-8 cannot encode *)
Definition charref (c : N) : list N :=
  if is_surrogate c then lit "&#" ++ dec c ++ lit ";" else [c].
Definition tostring (reg : list (list N * list N)) (x : xml) : res bytes :=
  utf8_encode (flat_map charref (xml_print reg x)).

(* ---------------- reading: markup ---------------- *)

(* line ends: a carriage return, alone or before a line feed, is a line feed *)
Fixpoint eol (s : list N) : list N :=
  match s with
  | [] => []
  | c :: s' =>
      if N.eqb c 13 then
        match s' with
        | d :: s'' => if N.eqb d 10 then 10%N :: eol s'' else 10%N :: eol s'
        | [] => [10%N]
        end
      else c :: eol s'
  end.

Definition is_ws (c : N) : bool := (N.eqb c 32 || N.eqb c 9 || N.eqb c 10)%bool.
Definition is_alpha (c : N) : bool := (N.leb 65 c && N.leb c 90 || N.leb 97 c && N.leb c 122)%bool.
Definition name_start (c : N) : bool := (is_alpha c || N.eqb c 95)%bool.
Definition nc_char (c : N) : bool := (name_start c || is_digit c || N.eqb c 45 || N.eqb c 46)%bool.
Definition name_char (c : N) : bool := (nc_char c || N.eqb c 58)%bool.
(* the characters of a document, as expat checks them *)
Definition is_char (c : N) : bool :=
  (N.eqb c 9 || N.eqb c 10 || N.eqb c 13 || N.leb 32 c && N.leb c 55295
   || N.leb 57344 c && N.leb c 65533 || N.leb 65536 c && N.leb c 1114111)%bool.

(* what stands between & and ; *)
Fixpoint digits_value (base : N) (digit : N -> option N) (acc : N) (s : list N) : option N :=
  match s with
  | [] => Some acc
  | c :: s' => match digit c with Some d => digits_value base digit (acc * base + d)%N s' | None => None end
  end.
Definition dec_value (c : N) : option N := if is_digit c then Some (c - 48)%N else None.
Definition checked (n : option N) : option N :=
  match n with Some c => if is_char c then Some c else None | None => None end.
Definition char_number (r : list N) : option N :=
  match r with
  | [] => None
  | c :: h => if N.eqb c 120 then match h with [] => None | _ => checked (digits_value 16 hex_value 0 h) end
              else checked (digits_value 10 dec_value 0 r)
  end.
Definition deref (r : list N) : option N :=
  if str_eqb r (lit "amp") then Some 38%N else if str_eqb r (lit "lt") then Some 60%N
  else if str_eqb r (lit "gt") then Some 62%N else if str_eqb r (lit "quot") then Some 34%N
  else if str_eqb r (lit "apos") then Some 39%N
  else match r with c :: r' => if N.eqb c 35 then char_number r' else None | [] => None end.
Definition ref_char (c : N) : bool := (name_char c || N.eqb c 35)%bool.

(* an element whose start tag was read: name, attributes, text so far, children so far *)
Record frame := { f_name : list N; f_attrs : list (list N * list N); f_text : list N; f_kids : list xml }.

(* where the reader is.  Attributes are kept with the name of their start tag. *)
Inductive mode : Type :=
| Before                                  (* in front of the first tag *)
| Lt                                      (* after < *)
| OpenName (n : list N)                   (* in the name of a start tag *)
| InTag (n : list N) (a : list (list N * list N)) (ws : bool)  (* between attributes; after white space? *)
| AttName (n : list N) (a : list (list N * list N)) (k : list N)
| AttEq (n : list N) (a : list (list N * list N)) (k : list N)     (* after the name of an attribute, before = *)
| AttQuote (n : list N) (a : list (list N * list N)) (k : list N)  (* after =, before the quote *)
| AttVal (n : list N) (a : list (list N * list N)) (k : list N) (q : N) (v : list N)
| AttRef (n : list N) (a : list (list N * list N)) (k : list N) (q : N) (v r : list N)  (* after & *)
| Slash (n : list N) (a : list (list N * list N))                  (* after / of an empty element *)
| CloseName (n : list N)
| CloseEnd (n : list N)                   (* after the name in an end tag *)
| Text (brackets : nat)                   (* in content; how many ] were just read *)
| TextRef (r : list N)                    (* after & in content *)
| Bang (o : option xml) (s : list N)      (* after <!; [o]: the document element when it is complete *)
| Comment (o : option xml) (d : nat)      (* in a comment; how many - were just read *)
| CData (b : nat)                         (* in a CDATA section; how many ] are held back *)
| PiName (o : option xml) (n : list N)    (* after <? *)
| Pi (o : option xml) (q : bool)          (* in a processing instruction; behind a question mark? *)
| PiEnd (o : option xml)                  (* after ? that ends the name *)
| AfterLt (x : xml)                       (* after < behind the document element *)
| After (x : xml)                         (* the document element is complete *)
| Bad.
Definition reader : Type := mode * list frame.

Definition add_text (s : list N) (f : frame) : frame :=
  match f_kids f with
  | [] => {| f_name := f_name f; f_attrs := f_attrs f; f_text := f_text f ++ s; f_kids := [] |}
  | _ => f
  end.
Definition add_chars (s : list N) (fs : list frame) : list frame :=
  match fs with f :: fs' => add_text s f :: fs' | [] => [] end.
Definition shown_text (s : list N) : option (list N) := match s with [] => None | _ => Some s end.
Definition add_kid (x : xml) (fs : list frame) : reader :=
  match fs with
  | [] => (After x, [])
  | f :: fs' => (Text 0, {| f_name := f_name f; f_attrs := f_attrs f; f_text := f_text f; f_kids := f_kids f ++ [x] |} :: fs')
  end.
Definition open_tag (n : list N) (a : list (list N * list N)) (fs : list frame) : reader :=
  (Text 0, {| f_name := n; f_attrs := a; f_text := []; f_kids := [] |} :: fs).
Definition close_tag (n : list N) (fs : list frame) : reader :=
  match fs with
  | f :: fs' => if str_eqb n (f_name f) then add_kid (Elem (f_name f) (f_attrs f) (shown_text (f_text f)) (f_kids f)) fs' else (Bad, [])
  | [] => (Bad, [])
  end.

(* behind a comment or a processing instruction (ElementTree leaves both out) *)
Definition resume (o : option xml) (fs : list frame) : reader :=
  match o with Some x => (After x, fs) | None => match fs with [] => (Before, fs) | _ => (Text 0, fs) end end.
(* the name of the XML declaration, in any case, is not that of an instruction *)
Definition lower (c : N) : N := if (N.leb 65 c && N.leb c 90)%bool then (c + 32)%N else c.
Definition reserved (n : list N) : bool := str_eqb (map lower n) (lit "xml").

(* one character *)
Definition step (st : reader) (c : N) : reader :=
  let '(m, fs) := st in
  match m with
  | Before => if is_ws c then (Before, fs) else if N.eqb c 60 then (Lt, fs) else (Bad, [])
  | Lt =>
      if N.eqb c 47 then match fs with [] => (Bad, []) | _ => (CloseName [], fs) end
      else if name_start c then (OpenName [c], fs)
      else if N.eqb c 33 then (Bang None [], fs) else if N.eqb c 63 then (PiName None [], fs) else (Bad, [])
  | OpenName n =>
      if name_char c then (OpenName (n ++ [c]), fs)
      else if is_ws c then (InTag n [] true, fs)
      else if N.eqb c 62 then open_tag n [] fs
      else if N.eqb c 47 then (Slash n [], fs) else (Bad, [])
  | InTag n a ws =>
      if is_ws c then (InTag n a true, fs)
      else if N.eqb c 62 then open_tag n a fs
      else if N.eqb c 47 then (Slash n a, fs)
      else if (name_start c && ws)%bool then (AttName n a [c], fs) else (Bad, [])
  | AttName n a k =>
      if name_char c then (AttName n a (k ++ [c]), fs)
      else if is_ws c then (AttEq n a k, fs)
      else if N.eqb c 61 then (AttQuote n a k, fs) else (Bad, [])
  | AttEq n a k => if is_ws c then (AttEq n a k, fs) else if N.eqb c 61 then (AttQuote n a k, fs) else (Bad, [])
  | AttQuote n a k =>
      if is_ws c then (AttQuote n a k, fs)
      else if (N.eqb c 34 || N.eqb c 39)%bool then (AttVal n a k c [], fs) else (Bad, [])
  | AttVal n a k q v =>
      if N.eqb c q then
        match dict_get str_eqb k a with Some _ => (Bad, []) | None => (InTag n (a ++ [(k, v)]) false, fs) end
      else if N.eqb c 60 then (Bad, [])
      else if N.eqb c 38 then (AttRef n a k q v [], fs)
      else if is_ws c then (AttVal n a k q (v ++ [32%N]), fs)
      else if is_char c then (AttVal n a k q (v ++ [c]), fs) else (Bad, [])
  | AttRef n a k q v r =>
      if N.eqb c 59 then match deref r with Some d => (AttVal n a k q (v ++ [d]), fs) | None => (Bad, []) end
      else if ref_char c then (AttRef n a k q v (r ++ [c]), fs) else (Bad, [])
  | Slash n a => if N.eqb c 62 then add_kid (Elem n a None []) fs else (Bad, [])
  | CloseName n =>
      if name_char c then (CloseName (n ++ [c]), fs)
      else if is_ws c then (CloseEnd n, fs) else if N.eqb c 62 then close_tag n fs else (Bad, [])
  | CloseEnd n => if is_ws c then (CloseEnd n, fs) else if N.eqb c 62 then close_tag n fs else (Bad, [])
  | Text b =>
      if N.eqb c 60 then (Lt, fs)
      else if N.eqb c 38 then (TextRef [], fs)
      else if N.eqb c 93 then (Text (S b), add_chars [c] fs)
      else if (N.eqb c 62 && Nat.leb 2 b)%bool then (Bad, [])
      else if is_char c then (Text 0, add_chars [c] fs) else (Bad, [])
  | TextRef r =>
      if N.eqb c 59 then match deref r with Some d => (Text 0, add_chars [d] fs) | None => (Bad, []) end
      else if ref_char c then (TextRef (r ++ [c]), fs) else (Bad, [])
  | Bang o s =>
      let s' := s ++ [c] in
      if str_eqb s' (lit "--") then (Comment o 0, fs)
      else if str_eqb s' (lit "[CDATA[") then match o, fs with None, _ :: _ => (CData 0, fs) | _, _ => (Bad, []) end
      else if (starts_with s' (lit "--") || starts_with s' (lit "[CDATA["))%bool then (Bang o s', fs) else (Bad, [])
  | Comment o d =>
      if N.eqb c 45 then match d with 0%nat => (Comment o 1, fs) | 1%nat => (Comment o 2, fs) | _ => (Bad, []) end
      else if Nat.eqb d 2 then if N.eqb c 62 then resume o fs else (Bad, [])
      else if is_char c then (Comment o 0, fs) else (Bad, [])
  | CData b =>
      if N.eqb c 93 then if Nat.eqb b 2 then (CData 2, add_chars [c] fs) else (CData (S b), fs)
      else if (N.eqb c 62 && Nat.eqb b 2)%bool then (Text 0, fs)
      else if is_char c then (CData 0, add_chars (repeat 93%N b ++ [c]) fs) else (Bad, [])
  | PiName o n =>
      match n with
      | [] => if name_start c then (PiName o [c], fs) else (Bad, [])
      | _ =>
          if nc_char c then (PiName o (n ++ [c]), fs)
          else if reserved n then (Bad, [])
          else if is_ws c then (Pi o false, fs) else if N.eqb c 63 then (PiEnd o, fs) else (Bad, [])
      end
  | Pi o q =>
      if (q && N.eqb c 62)%bool then resume o fs
      else if N.eqb c 63 then (Pi o true, fs) else if is_char c then (Pi o false, fs) else (Bad, [])
  | PiEnd o => if N.eqb c 62 then resume o fs else (Bad, [])
  | AfterLt x => if N.eqb c 33 then (Bang (Some x) [], fs) else if N.eqb c 63 then (PiName (Some x) [], fs) else (Bad, [])
  | After x => if is_ws c then (After x, fs) else if N.eqb c 60 then (AfterLt x, fs) else (Bad, [])
  | Bad => (Bad, [])
  end.

Definition drop_bom (s : list N) : list N :=
  match s with c :: s' => if N.eqb c 65279 then s' else s | [] => [] end.
(* The XML declaration, at the very start: version, encoding, standalone.  (The
   encoding is not looked at: Python has decoded the text already.) *)
Fixpoint skip_ws (s : list N) : list N := match s with c :: s' => if is_ws c then skip_ws s' else s | [] => [] end.
Definition decl_char (c : N) : bool := (is_alpha c || is_digit c || N.eqb c 46 || N.eqb c 45 || N.eqb c 95)%bool.
Fixpoint quoted (q : N) (s : list N) : option (list N * list N) :=
  match s with
  | c :: s' =>
      if N.eqb c q then Some ([], s')
      else if decl_char c then match quoted q s' with Some (v, r) => Some (c :: v, r) | None => None end else None
  | [] => None
  end.
Definition after_word (w s : list N) : option (list N) := if starts_with w s then Some (skipn (length w) s) else None.
(* white space, the word, = and a quoted value *)
Definition pseudo (w s : list N) : option (list N * list N) :=
  match s with
  | c :: s1 =>
      if is_ws c then
        match after_word w (skip_ws s1) with
        | Some s2 =>
            match skip_ws s2 with
            | e :: s3 =>
                if N.eqb e 61 then
                  match skip_ws s3 with
                  | q :: s4 => if (N.eqb q 34 || N.eqb q 39)%bool then quoted q s4 else None
                  | [] => None
                  end
                else None
            | [] => None
            end
        | None => None
        end
      else None
  | [] => None
  end.
Definition encoding_ok (v : list N) : bool := match v with c :: _ => is_alpha c | [] => false end.
Definition undeclared (s : list N) : option (list N) :=
  match after_word (lit "<?xml") s with
  | Some (c :: s1) =>
      if is_ws c then
        match pseudo (lit "version") (c :: s1) with
        | None => None
        | Some (_, s2) =>
            match (match pseudo (lit "encoding") s2 with
                   | Some (v, s3) => if encoding_ok v then Some s3 else None
                   | None => Some s2
                   end) with
            | None => None
            | Some s3 =>
                match (match pseudo (lit "standalone") s3 with
                       | Some (v, s4) => if (str_eqb v (lit "yes") || str_eqb v (lit "no"))%bool then Some s4 else None
                       | None => Some s3
                       end) with
                | None => None
                | Some s4 => after_word (lit "?>") (skip_ws s4)
                end
            end
        end
      else Some s
  | _ => Some s
  end.
Definition read_markup (s : list N) : option xml :=
  match undeclared (eol (drop_bom s)) with
  | Some s' => match fold_left step s' (Before, []) with (After x, _) => Some x | _ => None end
  | None => None
  end.

(* ---------------- reading: namespaces ---------------- *)

(* the bindings in scope: prefix -> uri, the default namespace under [] *)
Definition ncname (s : list N) : bool :=
  match s with c :: s' => (name_start c && forallb nc_char s')%bool | [] => false end.
Definition no_brace (s : list N) : bool := forallb (fun c => negb (N.eqb c 125)) s.

(* one attribute: Some (prefix, uri) for a declaration, None within for others,
   None outside when a declaration is not allowed *)
Definition declares (k v : list N) : option (option (list N * list N)) :=
  match split_on 58 k with
  | [d] =>
      if str_eqb d (lit "xmlns") then
        if (no_brace v && negb (str_eqb v xml_uri) && negb (str_eqb v xmlns_uri))%bool then Some (Some ([], v)) else None
      else Some None
  | [d; p] =>
      if str_eqb d (lit "xmlns") then
        if (ncname p && no_brace v && negb (str_eqb p (lit "xmlns")) && negb (str_eqb v []) && negb (str_eqb v xmlns_uri)
            && Bool.eqb (str_eqb p (lit "xml")) (str_eqb v xml_uri))%bool
        then Some (Some (p, v)) else None
      else Some None
  | _ => Some None
  end.
Fixpoint bindings (a : list (list N * list N)) (env : list (list N * list N)) : option (list (list N * list N) * list (list N * list N)) :=
  match a with
  | [] => Some (env, [])
  | (k, v) :: a' =>
      match declares k v with
      | None => None
      | Some (Some (p, u)) => bindings a' ((p, u) :: env)
      | Some None => match bindings a' env with Some (e, r) => Some (e, (k, v) :: r) | None => None end
      end
  end.

(* a name with its namespace: "{uri}local", or the name itself without one *)
Definition expand (env : list (list N * list N)) (attribute : bool) (n : list N) : option (list N) :=
  match split_on 58 n with
  | [l] =>
      if ncname l then
        match (if attribute then None else dict_get str_eqb [] env) with
        | Some (c :: u) => Some (qname (c :: u) l)
        | _ => Some l
        end
      else None
  | [p; l] =>
      if (ncname p && ncname l)%bool then
        match dict_get str_eqb p env with Some u => Some (qname u l) | None => None end
      else None
  | _ => None
  end.
Fixpoint expand_all (env : list (list N * list N)) (a : list (list N * list N)) : option (list (list N * list N)) :=
  match a with
  | [] => Some []
  | (k, v) :: a' =>
      match expand env true k, expand_all env a' with
      | Some k', Some r => match dict_get str_eqb k' r with Some _ => None | None => Some ((k', v) :: r) end
      | _, _ => None
      end
  end.
Fixpoint resolve (env : list (list N * list N)) (x : xml) : option xml :=
  match x with
  | Elem t a txt kids =>
      match bindings a env with
      | None => None
      | Some (env', rest) =>
          match expand env' false t, expand_all env' rest,
                (fix all (l : list xml) : option (list xml) :=
                   match l with
                   | [] => Some []
                   | y :: l' => match resolve env' y, all l' with Some z, Some r => Some (z :: r) | _, _ => None end
                   end) kids with
          | Some t', Some a', Some kids' => Some (Elem t' a' txt kids')
          | _, _, _ => None
          end
      end
  end.

(* ElementTree.fromstring(str): None is ET.ParseError *)
Definition xml_parse (s : list N) : option xml :=
  match read_markup s with Some x => resolve [(lit "xml", xml_uri)] x | None => None end.

(* ---------------- the registry ---------------- *)

(* ElementTree.register_namespace; a prefix ns<number> is refused (ValueError),
   which none of the library's is *)
Definition register (reg : list (list N * list N)) (prefix uri : list N) : list (list N * list N) :=
  dict_set str_eqb uri prefix (filter (fun e => negb (str_eqb (fst e) uri || str_eqb (snd e) prefix)) reg).
(* ElementTree._namespace_map as Python starts with it *)
Definition python_registry : list (list N * list N) :=
  [(xml_uri, lit "xml"); (lit "http://www.w3.org/1999/xhtml", lit "html");
   (lit "http://www.w3.org/1999/02/22-rdf-syntax-ns#", lit "rdf"); (lit "http://schemas.xmlsoap.org/wsdl/", lit "wsdl");
   (lit "http://www.w3.org/2001/XMLSchema", lit "xs"); (lit "http://www.w3.org/2001/XMLSchema-instance", lit "xsi");
   (lit "http://purl.org/dc/elements/1.1/", lit "dc")].
(* NAMESPACES, wsman.py:51-76 *)
Definition wsman_namespaces : list (list N * list N) :=
  [(lit "s", lit "http://www.w3.org/2003/05/soap-envelope");
   (lit "xs", lit "http://www.w3.org/2001/XMLSchema");
   (lit "xsi", lit "http://www.w3.org/2001/XMLSchema-instance");
   (lit "wsa", lit "http://schemas.xmlsoap.org/ws/2004/08/addressing");
   (lit "wsman", lit "http://schemas.dmtf.org/wbem/wsman/1/wsman.xsd");
   (lit "wsmid", lit "http://schemas.dmtf.org/wbem/wsman/identify/1/wsmanidentity.xsd");
   (lit "wsmanfault", lit "http://schemas.microsoft.com/wbem/wsman/1/wsmanfault");
   (lit "cim", lit "http://schemas.dmtf.org/wbem/wscim/1/common");
   (lit "wsmv", lit "http://schemas.microsoft.com/wbem/wsman/1/wsman.xsd");
   (lit "cfg", lit "http://schemas.microsoft.com/wbem/wsman/1/config");
   (lit "sub", lit "http://schemas.microsoft.com/wbem/wsman/1/subscription");
   (lit "rsp", lit "http://schemas.microsoft.com/wbem/wsman/1/windows/shell");
   (lit "m", lit "http://schemas.microsoft.com/wbem/wsman/1/machineid");
   (lit "cert", lit "http://schemas.microsoft.com/wbem/wsman/1/config/service/certmapping");
   (lit "plugin", lit "http://schemas.microsoft.com/wbem/wsman/1/config/PluginConfiguration");
   (lit "wsen", lit "http://schemas.xmlsoap.org/ws/2004/09/enumeration");
   (lit "wsdl", lit "http://schemas.xmlsoap.org/wsdl");
   (lit "wst", lit "http://schemas.xmlsoap.org/ws/2004/09/transfer");
   (lit "wsp", lit "http://schemas.xmlsoap.org/ws/2004/09/policy");
   (lit "wse", lit "http://schemas.xmlsoap.org/ws/2004/08/eventing");
   (lit "i", lit "http://schemas.microsoft.com/wbem/wsman/1/cim/interactive.xsd");
   (lit "xml", lit "http://www.w3.org/XML/1998/namespace");
   (lit "pwsh", lit "http://schemas.microsoft.com/powershell")].
(* wsman.py:237-240: done when a WSMan object is made *)
Definition library_registry : list (list N * list N) :=
  fold_left (fun reg e => register reg (fst e) (snd e)) wsman_namespaces python_registry.
