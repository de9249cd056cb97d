(** Annotations and draw frames of a cell: io/write.rs [write_annotation], [write_draw_frame], [write_draw_image], io/read.rs [read_annotation],
    [read_draw_frame], [read_image], [read_text]. *)
From Verif Require Import Base XmlModel CellModel NumModel.

Definition t_annotation : str := lit "office:annotation".
Definition t_creator : str := lit "dc:creator".
Definition t_date : str := lit "dc:date".
Definition t_frame : str := lit "draw:frame".
Definition t_image : str := lit "draw:image".
Definition t_data : str := lit "office:binary-data".
Definition t_desc : str := lit "svg:desc".
Definition t_title : str := lit "svg:title".
Definition t_par : str := lit "text:p".
Definition t_list : str := lit "text:list".

(** ** Writing *)

(** write.rs:2267-2269: attributes of an [AttrMap2]. [if let Some(v) = .. { elem; text_esc; end_elem }]. *)
Definition map_attrs (l : list (str * str)) : list call := map (fun kv => CAttrEsc (fst kv) (snd kv)) l.
Definition opt_elem (n : str) (o : option str) : list call := match o with Some v => [CElem n; CTextEsc v; CEnd n] | None => [] end.
(** write.rs:2313-2344. *)
Definition write_annotation (a : annotation) : list call :=
  CElem t_annotation :: CAttr (lit "office:display") (show_bool (an_display a)) :: CAttrEsc (lit "office:name") (an_name a) :: map_attrs (an_attrs a)
  ++ opt_elem t_creator (an_creator a)
  ++ opt_elem t_date (match an_date a with Some d => Some (format_datetime d) | None => None end)
  ++ flat_map write_node (an_text a) ++ [CEnd t_annotation].
(** write.rs:2288-2311; the data is not escaped. *)
Definition write_image (i : dimage) : list call :=
  CElem t_image :: map_attrs (im_attrs i)
  ++ (match im_data i with Some v => [CElem t_data; CText v; CEnd t_data] | None => [] end)
  ++ flat_map write_node (im_text i) ++ [CEnd t_image].
(** write.rs:2261-2286. *)
Definition write_frame (f : dframe) : list call :=
  CElem t_frame :: map_attrs (df_attrs f) ++ flat_map write_image (df_content f)
  ++ opt_elem t_desc (df_desc f) ++ opt_elem t_title (df_title f) ++ [CEnd t_frame].

(** ** Reading *)

(** One event of the loop of [read_xml], read.rs:4718-4773 (see [read_xml_loop]). *)
Definition tree_step (super : str) (st : list frame) (e : event) : res (list frame + xnode) :=
  match e with
  | EStart n a => Ok (inl ((n, a, []) :: st))
  | EEmpty n a => let* s := top_add (XTag n a []) st in Ok (inl s)
  | ERef t => let* v := entity t in let* s := top_add (XText v) st in Ok (inl s)
  | EText t => let* s := top_add (XText t) st in Ok (inl s)
  | EEnd n =>
      match st with
      | [] => Panic
      | f :: st' => if str_eqb n super then Ok (inr (close_frame f))
                    else let* s := top_add (close_frame f) st' in Ok (inl s)
      end
  | EOther _ => Ok (inl st)
  end.
(** One event of the loop of [read_text], read.rs:4974-5000. *)
Definition rtext_step (super t : str) (e : event) : res (str + str) :=
  match e with
  | ERef x => let* v := entity x in Ok (inl (t ++ v))
  | EText x => Ok (inl (t ++ x))
  | EEnd n => if str_eqb n super then Ok (inr t) else Err
  | EStart _ _ | EEmpty _ _ => Err
  | EOther _ => Ok (inl t)
  end.

Definition ann0 : annotation := Ann [] false None None [] [].
Definition ann_attr (a : annotation) (kv : str * str) : res annotation :=
  let (k, v) := kv in
  if str_eqb k (lit "office:display") then
    (* [&attr.value] is not unescaped, see [raw] *)
    let* b := parse_bool (escape v) in Ok (Ann (an_name a) b (an_creator a) (an_date a) (an_text a) (an_attrs a))
  else if str_eqb k (lit "office:name") then Ok (Ann v (an_display a) (an_creator a) (an_date a) (an_text a) (an_attrs a))
  else Ok (Ann (an_name a) (an_display a) (an_creator a) (an_date a) (an_text a) (an_attrs a ++ [kv])).
(** read.rs:1662-1676. *)
Fixpoint ann_read_attrs (a : annotation) (l : list (str * str)) : res annotation :=
  match l with [] => Ok a | kv :: r => let* a' := ann_attr a kv in ann_read_attrs a' r end.
Definition ann_set_creator (o : option str) (a : annotation) : annotation := Ann (an_name a) (an_display a) o (an_date a) (an_text a) (an_attrs a).
Definition ann_set_date (o : option datetime) (a : annotation) : annotation := Ann (an_name a) (an_display a) (an_creator a) o (an_text a) (an_attrs a).
Definition ann_push (x : xnode) (a : annotation) : annotation := Ann (an_name a) (an_display a) (an_creator a) (an_date a) (an_text a ++ [x]) (an_attrs a).
Definition im_set_data (v : str) (i : dimage) : dimage := DImage (im_attrs i) (Some v) (im_text i).
Definition im_push (x : xnode) (i : dimage) : dimage := DImage (im_attrs i) (im_data i) (im_text i ++ [x]).
Definition df_push (i : dimage) (f : dframe) : dframe := DFrame (df_title f) (df_desc f) (df_attrs f) (df_content f ++ [i]).
Definition df_set (title : bool) (v : str) (f : dframe) : dframe :=
  if title then DFrame (Some v) (df_desc f) (df_attrs f) (df_content f) else DFrame (df_title f) (Some v) (df_attrs f) (df_content f).

(** Which function is reading: [read_annotation], [read_text] or [read_xml] called from it, [read_draw_frame], [read_text] called from it, and
    [read_image] called from it with its own [read_text] and [read_xml]. *)
Inductive smode :=
| SAnn (a : annotation)
| SAnnText (a : annotation) (date : bool) (t : str)
| SAnnTree (a : annotation) (super : str) (st : list frame)
| SFrame (f : dframe)
| SFrameText (f : dframe) (title : bool) (t : str)
| SImage (f : dframe) (i : dimage)
| SImageData (f : dframe) (i : dimage) (t : str)
| SImageTree (f : dframe) (i : dimage) (super : str) (st : list frame).
Definition is_text_tag (n : str) : bool := str_eqb n t_list || str_eqb n t_par.
Definition text_tag (date : bool) : str := if date then t_date else t_creator.
Definition frame_tag (title : bool) : str := if title then t_title else t_desc.
(** [parse_string] cannot fail; [parse_datetime] can. *)
Definition ann_text_done (a : annotation) (date : bool) (t : str) : res annotation :=
  if date then let* d := parse_datetime t in Ok (ann_set_date (Some d) a) else Ok (ann_set_creator (Some t) a).
(** read.rs:1678-1717, 1731-1773, 1787-1821: one event. The result is the new state, or what [read_annotation] or [read_draw_frame] returns. *)
Definition sub_step (m : smode) (e : event) : res (smode + (annotation + dframe)) :=
  match m with
  | SAnn a =>
      match e with
      | EEnd n => if str_eqb n t_annotation then Ok (inr (inl a)) else Ok (inl m)
      | EStart n b =>
          if str_eqb n t_creator then Ok (inl (SAnnText a false []))
          else if str_eqb n t_date then Ok (inl (SAnnText a true []))
          else if is_text_tag n then Ok (inl (SAnnTree a n [(n, b, [])])) else Ok (inl m)
      | EEmpty n b =>
          if str_eqb n t_creator then Ok (inl (SAnn (ann_set_creator None a)))
          else if str_eqb n t_date then Ok (inl (SAnn (ann_set_date None a)))
          else if is_text_tag n then Ok (inl (SAnn (ann_push (XTag n b []) a))) else Ok (inl m)
      | _ => Ok (inl m)
      end
  | SAnnText a d t =>
      let* r := rtext_step (text_tag d) t e in
      match r with inl t' => Ok (inl (SAnnText a d t')) | inr t' => let* a' := ann_text_done a d t' in Ok (inl (SAnn a')) end
  | SAnnTree a n st =>
      let* r := tree_step n st e in match r with inl st' => Ok (inl (SAnnTree a n st')) | inr x => Ok (inl (SAnn (ann_push x a))) end
  | SFrame f =>
      match e with
      | EEnd n => if str_eqb n t_frame then Ok (inr (inr f)) else Ok (inl m)
      | EStart n b =>
          if str_eqb n t_image then Ok (inl (SImage f (DImage b None [])))
          else if str_eqb n t_desc then Ok (inl (SFrameText f false []))
          else if str_eqb n t_title then Ok (inl (SFrameText f true [])) else Ok (inl m)
      | EEmpty n b => if str_eqb n t_image then Ok (inl (SFrame (df_push (DImage b None []) f))) else Ok (inl m)
      | _ => Ok (inl m)
      end
  | SFrameText f d t =>
      let* r := rtext_step (frame_tag d) t e in match r with inl t' => Ok (inl (SFrameText f d t')) | inr t' => Ok (inl (SFrame (df_set d t' f))) end
  | SImage f i =>
      match e with
      | EEnd n => if str_eqb n t_image then Ok (inl (SFrame (df_push i f))) else Ok (inl m)
      | EStart n b =>
          if str_eqb n t_data then Ok (inl (SImageData f i []))
          else if is_text_tag n then Ok (inl (SImageTree f i n [(n, b, [])])) else Ok (inl m)
      | EEmpty n b => if is_text_tag n then Ok (inl (SImage f (im_push (XTag n b []) i))) else Ok (inl m)
      | _ => Ok (inl m)
      end
  | SImageData f i t =>
      let* r := rtext_step t_data t e in match r with inl t' => Ok (inl (SImageData f i t')) | inr t' => Ok (inl (SImage f (im_set_data t' i))) end
  | SImageTree f i n st =>
      let* r := tree_step n st e in match r with inl st' => Ok (inl (SImageTree f i n st')) | inr x => Ok (inl (SImage f (im_push x i))) end
  end.
Fixpoint sub_loop (m : smode) (evs : list event) : res ((annotation + dframe) * list event) :=
  match evs with
  | [] => Err
  | e :: r => let* x := sub_step m e in match x with inl m' => sub_loop m' r | inr d => Ok (d, r) end
  end.
(** read.rs:1655-1720 [read_annotation], 1722-1774 [read_draw_frame] from the start tag on; the unread events are returned. The end of the file
    ends the loops, but see [cell_loop]. *)
Definition sub_start (e : event) : res smode :=
  match e with
  | EStart n a =>
      if str_eqb n t_annotation then let* x := ann_read_attrs ann0 a in Ok (SAnn x)
      else if str_eqb n t_frame then Ok (SFrame (DFrame None None a []))
      else Err
  | _ => Err
  end.
Definition read_sub (evs : list event) : res ((annotation + dframe) * list event) :=
  match evs with e :: r => let* m := sub_start e in sub_loop m r | [] => Err end.
