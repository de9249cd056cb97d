(** Model of src/io/xmlwriter.rs (writer), of the event stream quick-xml
    delivers for a document, and of the generic tree reader/writer
    ([write_xmltag], [read_xml]). *)
From Verif Require Import Base.

Definition c_quot : char := 34.
Definition c_amp : char := 38.
Definition c_apos : char := 39.
Definition c_slash : char := 47.
Definition c_semi : char := 59.
Definition c_lt : char := 60.
Definition c_eq : char := 61.
Definition c_gt : char := 62.
Definition c_nl : char := 10.
Definition c_bslash : char := 92.

(** ** Writer *)

(** io/xmlwriter.rs:308-327 [escape]; works on bytes there, on chars here
    (the five bytes are ASCII, so they never occur inside a multi-byte char). *)
Definition escape_char (c : char) : str :=
  if c =? c_quot then lit "&quot;"
  else if c =? c_apos then lit "&apos;"
  else if c =? c_amp then lit "&amp;"
  else if c =? c_lt then lit "&lt;"
  else if c =? c_gt then lit "&gt;"
  else [c].
Definition escape (s : str) : str := flat_map escape_char s.

(** io/xmlwriter.rs:342-379 [escape_name] *)
Definition escape_name (s : str) : str :=
  flat_map (fun c => if c =? c_bslash then [c_bslash; c_bslash] else escape_char c) s.

(** io/xmlwriter.rs:8-13 *)
Inductive open_state := ONone | OElem | OEmpty.

(** The calls of [XmlWriter]. [attr_str] and [attr] are one call here,
    likewise [text_str] and [text]: they push the same characters. *)
Inductive call :=
| CDtd (enc : str)
| CElemText (n t : str)
| CElemTextEsc (n t : str)
| CElem (n : str)
| CElemIf (has_content : bool) (n : str)
| CEmpty (n : str)
| CAttr (n v : str)
| CAttrEsc (n v : str)
| CText (t : str)
| CTextEsc (t : str)
| CEndIf (has_content : bool) (n : str)
| CEnd (n : str).

(** The optional line break after a tag. *)
Definition nl (lb : bool) : str := if lb then [c_nl] else [].

(** io/xmlwriter.rs:227-244 [close_elem]: characters pushed. *)
Definition close_elem (lb : bool) (o : open_state) : str :=
  match o with
  | ONone => []
  | OElem => [c_gt]
  | OEmpty => [c_slash; c_gt] ++ nl lb
  end.

Definition start_chars (n : str) : str := c_lt :: n.
Definition end_chars (lb : bool) (n : str) : str := c_lt :: c_slash :: n ++ [c_gt] ++ nl lb.

(** One call: characters pushed and the new [open] state.
    io/xmlwriter.rs: dtd 114-123, elem_text 126-148, elem_text_esc 152-174,
    elem 191-200, elem_if 203-214, empty 217-224, attr_str/attr 248-281,
    attr_esc 284-302, text_str/text 382-393, text_esc 396-400,
    end_elem_if 403-436, end_elem 440-442. The [check_xml] feature is off.
    [buf]/[writer] are one output stream here (write_buf 444-448). *)
Definition step (lb : bool) (o : open_state) (c : call) : str * open_state :=
  match c with
  | CDtd enc => (lit "<?xml version=""1.0"" encoding=""" ++ enc ++ lit """ ?>" ++ [c_nl] ++ nl lb, o)
  | CElemText n t => (close_elem lb o ++ start_chars n ++ [c_gt] ++ t ++ end_chars lb n, ONone)
  | CElemTextEsc n t => (close_elem lb o ++ start_chars n ++ [c_gt] ++ escape t ++ end_chars lb n, ONone)
  | CElem n => (close_elem lb o ++ start_chars n, OElem)
  | CElemIf b n => (close_elem lb o ++ start_chars n, if b then OElem else OEmpty)
  | CEmpty n => (close_elem lb o ++ start_chars n, OEmpty)
  | CAttr n v => (lit " " ++ n ++ [c_eq; c_quot] ++ v ++ [c_quot], o)
  | CAttrEsc n v => (lit " " ++ escape_name n ++ [c_eq; c_quot] ++ escape v ++ [c_quot], o)
  | CText t => (close_elem lb o ++ t, ONone)
  | CTextEsc t => (close_elem lb o ++ escape t, ONone)
  | CEndIf b n => (close_elem lb o ++ (if b then end_chars lb n else []), ONone)
  | CEnd n => (close_elem lb o ++ end_chars lb n, ONone)
  end.

(** The characters a sequence of calls leaves in the file; [close]
    (io/xmlwriter.rs:451-461) only flushes. *)
Fixpoint render_from (lb : bool) (o : open_state) (cs : list call) : str :=
  match cs with
  | [] => []
  | c :: cs' => let (out, o') := step lb o c in out ++ render_from lb o' cs'
  end.
Definition render (lb : bool) (cs : list call) : str := render_from lb ONone cs.

(** ** Events, as delivered by quick-xml 0.38 with the default configuration
    (no trimming, empty elements not expanded). quick-xml is an external crate:
    this is a model of its documented behaviour, restricted to elements, text,
    references and declarations; comments, CDATA and processing instructions
    are not produced by the writer and come out as [EOther]. Attributes carry
    their unescaped value ([decode_and_unescape_value]). *)
Inductive event :=
| EStart (n : str) (attrs : list (str * str))
| EEmpty (n : str) (attrs : list (str * str))
| EEnd (n : str)
| EText (t : str)
| ERef (t : str)
| EOther (t : str).

Definition is_ws (c : char) : bool := (c =? 32) || (c =? 9) || (c =? 13) || (c =? 10).

(** Numeric value of a character reference, decimal or hexadecimal. *)
Definition hex_val (c : char) : option N :=
  if is_digit c then Some (c - 48)
  else if (97 <=? c) && (c <=? 102) then Some (c - 87)
  else if (65 <=? c) && (c <=? 70) then Some (c - 55)
  else None.
Fixpoint num_base (base acc : N) (s : str) : option N :=
  match s with
  | [] => Some acc
  | c :: s' => match hex_val c with
    | Some d => if d <? base then num_base base (acc * base + d) s' else None
    | None => None
    end
  end.
Definition char_ok (n : N) : bool := negb (n =? 0) && (n <=? 1114111) && negb ((55296 <=? n) && (n <=? 57343)).
Definition num_ref (base : N) (d : str) : res (option char) :=
  match d with
  | [] => Err
  | _ => match num_base base 0 d with Some n => if char_ok n then Ok (Some n) else Err | None => Err end
  end.
Definition resolve_char_ref (s : str) : res (option char) :=
  match s with
  | [] => Ok None
  | c :: d =>
      if c =? 35 then
        match d with
        | [] => Err
        | x :: h => if x =? 120 then num_ref 16 h else num_ref 10 d
        end
      else Ok None
  end.

Definition named_entity (s : str) : option char :=
  if str_eqb s (lit "lt") then Some c_lt
  else if str_eqb s (lit "gt") then Some c_gt
  else if str_eqb s (lit "amp") then Some c_amp
  else if str_eqb s (lit "apos") then Some c_apos
  else if str_eqb s (lit "quot") then Some c_quot
  else None.

(** io/read.rs:5013-5027 [entity] *)
Definition entity (s : str) : res str :=
  let* o := resolve_char_ref s in
  match o with
  | Some c => Ok [c]
  | None => match named_entity s with
      | Some c => Ok [c]
      | None => Ok ([c_amp] ++ s ++ [c_semi])
      end
  end.

(** quick-xml [unescape]: unknown entities are errors. [ref]: inside a reference. *)
Fixpoint unescape_from (ref : option str) (s : str) : res str :=
  match s with
  | [] => match ref with None => Ok [] | Some _ => Err end
  | c :: s' =>
      match ref with
      | None =>
          if c =? c_amp then unescape_from (Some []) s'
          else let* r := unescape_from None s' in Ok (c :: r)
      | Some acc =>
          if c =? c_semi then
            let* o := resolve_char_ref (rev acc) in
            match (match o with Some c => Some c | None => named_entity (rev acc) end) with
            | Some x => let* r := unescape_from None s' in Ok (x :: r)
            | None => Err
            end
          else if c =? c_amp then Err
          else unescape_from (Some (c :: acc)) s'
      end
  end.
Definition unescape (s : str) : res str := unescape_from None s.

(** Attribute syntax inside a tag. Attributes are not checked for duplicates
    ([with_checks(false)], io/read.rs:3615-3629). *)
Inductive amode :=
| ABefore
| AKey (acc : str)
| AAfterKey (k : str)
| AQuote (k : str)
| AVal (k : str) (q : char) (acc : str).

Fixpoint lex_attrs (m : amode) (s : str) : res (list (str * str)) :=
  match s with
  | [] => match m with ABefore => Ok [] | _ => Err end
  | c :: s' =>
      match m with
      | ABefore => if is_ws c then lex_attrs ABefore s' else if c =? c_eq then Err else lex_attrs (AKey [c]) s'
      | AKey acc =>
          if c =? c_eq then lex_attrs (AQuote (rev acc)) s'
          else if is_ws c then lex_attrs (AAfterKey (rev acc)) s'
          else lex_attrs (AKey (c :: acc)) s'
      | AAfterKey k => if is_ws c then lex_attrs (AAfterKey k) s' else if c =? c_eq then lex_attrs (AQuote k) s' else Err
      | AQuote k => if is_ws c then lex_attrs (AQuote k) s'
                    else if (c =? c_quot) || (c =? c_apos) then lex_attrs (AVal k c []) s' else Err
      | AVal k q acc =>
          if c =? q then
            let* v := unescape (rev acc) in
            let* r := lex_attrs ABefore s' in Ok ((k, v) :: r)
          else lex_attrs (AVal k q (c :: acc)) s'
      end
  end.

Definition parse_start (s : str) : res (str * list (str * str)) :=
  let (n, r) := span (fun c => negb (is_ws c)) s in
  let* a := lex_attrs ABefore r in Ok (n, a).

(** The characters between '<' and '>'. *)
Definition parse_tag (s : str) : res event :=
  match s with
  | [] => Err
  | c :: s' =>
      if c =? c_slash then Ok (EEnd (fst (span (fun c => negb (is_ws c)) s')))
      else if (c =? 63) || (c =? 33) then Ok (EOther s)
      else if last s 0 =? c_slash then
        let* (n, a) := parse_start (removelast s) in Ok (EEmpty n a)
      else
        let* (n, a) := parse_start s in Ok (EStart n a)
  end.

Inductive lmode :=
| MText (acc : str)
| MRef (acc : str)
| MTag (acc : str) (q : option char).

Definition emit_text (t : str) : list event := match t with [] => [] | _ => [EText t] end.

(** Splitting a document into events. *)
Fixpoint lex (m : lmode) (s : str) : res (list event) :=
  match s with
  | [] => match m with MText acc => Ok (emit_text (rev acc)) | _ => Err end
  | c :: s' =>
      match m with
      | MText acc =>
          if c =? c_lt then let* r := lex (MTag [] None) s' in Ok (emit_text (rev acc) ++ r)
          else if c =? c_amp then let* r := lex (MRef []) s' in Ok (emit_text (rev acc) ++ r)
          else lex (MText (c :: acc)) s'
      | MRef acc =>
          if c =? c_semi then let* r := lex (MText []) s' in Ok (ERef (rev acc) :: r)
          else if (c =? c_lt) || (c =? c_amp) then Err
          else lex (MRef (c :: acc)) s'
      | MTag acc q =>
          match q with
          | Some qc => lex (MTag (c :: acc) (if c =? qc then None else q)) s'
          | None =>
              if c =? c_gt then
                let* e := parse_tag (rev acc) in
                let* r := lex (MText []) s' in Ok (e :: r)
              else if (c =? c_quot) || (c =? c_apos) then lex (MTag (c :: acc) (Some c)) s'
              else lex (MTag (c :: acc) None) s'
          end
      end
  end.

(** End tags must match ([check_end_names], on by default). quick-xml reports
    this while reading on, here the whole document is checked first. *)
Fixpoint nested (stack : list str) (evs : list event) : bool :=
  match evs with
  | [] => true
  | EStart n _ :: r => nested (n :: stack) r
  | EEnd n :: r => match stack with
      | m :: stack' => str_eqb n m && nested stack' r
      | [] => false
      end
  | _ :: r => nested stack r
  end.

Definition read_events (s : str) : res (list event) :=
  let* evs := lex (MText []) s in if nested [] evs then Ok evs else Err.

(** ** Trees *)

(** xmltree.rs:44-60 [XmlTag], [XmlContent]; a tag is an [XTag] node. Attributes
    are the list the [AttrMap2] iterates over. *)
Inductive xnode :=
| XText (t : str)
| XTag (n : str) (attrs : list (str * str)) (content : list xnode).

Definition has_content (c : list xnode) : bool := match c with [] => false | _ => true end.

(** io/write.rs:3134-3155 [write_xmltag] *)
Fixpoint write_node (x : xnode) : list call :=
  match x with
  | XText t => [CTextEsc t]
  | XTag n a c =>
      CElemIf (has_content c) n :: map (fun kv => CAttrEsc (fst kv) (snd kv)) a
      ++ flat_map write_node c
      ++ [CEndIf (has_content c) n]
  end.

(** Tag under construction on the reader's stack. *)
Definition frame : Type := str * list (str * str) * list xnode.
Definition close_frame (f : frame) : xnode := let '(n, a, c) := f in XTag n a c.
Definition frame_add (x : xnode) (f : frame) : frame := let '(n, a, c) := f in (n, a, c ++ [x]).
Definition top_add (x : xnode) (st : list frame) : res (list frame) :=
  match st with f :: st' => Ok (frame_add x f :: st') | [] => Panic end.

(** io/read.rs:4718-4773 [read_xml], the loop. [super] is the name of the
    enclosing tag; the head of [st] is the top of the stack. Returns the tag
    on top of the stack (4778) and the unread events. *)
Fixpoint read_xml_loop (super : str) (st : list frame) (evs : list event) : res (xnode * list event) :=
  match evs with
  | [] => match st with f :: _ => Ok (close_frame f, []) | [] => Panic end
  | e :: r =>
      match e with
      | EStart n a => read_xml_loop super ((n, a, []) :: st) r
      | EEnd n =>
          if str_eqb n super then match st with f :: _ => Ok (close_frame f, r) | [] => Panic end
          else match st with
            | f :: st' => let* st2 := top_add (close_frame f) st' in read_xml_loop super st2 r
            | [] => Panic
            end
      | EEmpty n a => let* st2 := top_add (XTag n a []) st in read_xml_loop super st2 r
      | ERef t => let* v := entity t in let* st2 := top_add (XText v) st in read_xml_loop super st2 r
      | EText t => let* st2 := top_add (XText t) st in read_xml_loop super st2 r
      | EOther _ => read_xml_loop super st r
      end
  end.

(** io/read.rs:4704-4781 [read_xml] *)
Definition read_xml (n : str) (a : list (str * str)) (empty_tag : bool) (evs : list event)
  : res (xnode * list event) :=
  if empty_tag then Ok (XTag n a [], evs)
  else read_xml_loop n [(n, a, [])] evs.

(** How the callers use it: the event of the tag decides [empty_tag]. *)
Definition read_tag (evs : list event) : res (xnode * list event) :=
  match evs with
  | EStart n a :: r => read_xml n a false r
  | EEmpty n a :: r => read_xml n a true r
  | _ => Err
  end.
