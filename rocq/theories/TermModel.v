(** Reading turn by turn, to tell a loop that ends from one that does not. *)
From Verif Require Import Base NumModel XmlModel CellModel CellIoModel HeaderModel TableModel CloneModel BookModel ScriptModel ValidModel StyleModel MetaModel ConfigModel WorkModel.

(** At the end of the file quick-xml gives the event Eof again and again. All loops of read.rs break there (lines 307, 343, 775, 859, 1464, 1707,
    1761, 1811, 1857, ...) but the one of [read_table] (938-1086), where it is one of the events that are passed over.
    [None] stands for a loop that still runs after [n] turns. *)

(** read.rs:1707, 1761, 1811, 4765-4780, 4999-5007: the loops inside an annotation or a frame break one after the other. Of a tree that is being
    read, the innermost open tag is what [read_xml] returns (it takes it off the stack, which is never empty); the rest is dropped. Text is parsed as far as it goes. *)
Definition top_of (st : list frame) (f : xnode -> annotation + dframe) (d : annotation + dframe) : annotation + dframe :=
  match st with q :: _ => f (close_frame q) | [] => d end.
Definition sub_eof (m : smode) : res (annotation + dframe) :=
  match m with
  | SAnn a => Ok (inl a)
  | SAnnText a d t => let* a' := ann_text_done a d t in Ok (inl a')
  | SAnnTree a _ st => Ok (top_of st (fun x => inl (ann_push x a)) (inl a))
  | SFrame f => Ok (inr f)
  | SFrameText f d t => Ok (inr (df_set d t f))
  | SImage f i => Ok (inr (df_push i f))
  | SImageData f i t => Ok (inr (df_push (im_set_data t i) f))
  | SImageTree f i _ st => Ok (top_of st (fun x => inr (df_push (im_push x i) f)) (inr (df_push i f)))
  end.
(** read.rs:1464, 4941: the same for the loops of a cell. *)
Definition cell_eof (s : cellacc) (m : cmode) : res cellacc :=
  match m with
  | KCell => Ok s
  | KPara _ pc _ => Ok (set_content (append_text (p_done pc) (a_content s)) s)
  | KSub q => let* d := sub_eof q in Ok (put_sub d s)
  end.
(** read.rs:1083-1085, 1475-1495, 4765-4780: what one turn of [read_table] does at the end of the file. *)
Definition table_eof (ign : bool) (s : tstate) (m : tmode) : res tstate :=
  match m with
  | MTable => Ok s
  | MCell _ x cm => let* d := col_default s in let* x' := cell_eof x cm in let* y := cell_finish ign d x' in store_cell s y
  | MTree _ st => Ok (match st with f :: _ => on_sheet (add_extra (close_frame f)) s | [] => s end)
  end.
(** read.rs:938-1086. *)
Fixpoint table_turns (n : nat) (ign : bool) (s : tstate) (m : tmode) (evs : list event) : option (res (tstate * list event)) :=
  match n with
  | O => None
  | S n' =>
      match evs with
      | e :: r =>
          match table_step ign s m e with
          | Ok (inl (s', m')) => table_turns n' ign s' m' r
          | Ok (inr s') => Some (Ok (s', r))
          | Err => Some Err
          | Panic => Some Panic
          end
      | [] => match table_eof ign s m with Ok s' => table_turns n' ign s' MTable [] | Err => Some Err | Panic => Some Panic end
      end
  end.
(** read.rs:914-1094 [read_table], see TableModel. *)
Definition read_table_turns (n : nat) (ign : bool) (evs : list event) : option (res (sheet * list event)) :=
  match evs with
  | EStart _ a :: r =>
      match TableModel.fold_attrs table_attr sheet0 a with
      | Ok sh =>
          match table_turns n ign (TS sh 0 0 false 0 [] 1 0 []) MTable r with
          | Some x => Some (let* (s, r') := x in Ok (ts_sheet s, r'))
          | None => None
          end
      | Err => Some Err
      | Panic => Some Panic
      end
  | _ => Some Err
  end.

(** The other loops, see [reading]; [step] may call a loop that does not end. *)
Fixpoint reading_turns {S : Type} (n : nat) (stop : option str) (step : S -> event -> list event -> option (res (S * list event))) (s : S) (evs : list event)
  : option (res (bool * S * list event)) :=
  match n with
  | O => None
  | Datatypes.S n' =>
      match evs with
      | [] => Some (Ok (false, s, []))
      | e :: r =>
          if (match e, stop with EEnd t, Some q => str_eqb t q | _, _ => false end) then Some (Ok (true, s, r))
          else match step s e r with
               | Some (Ok (s', r')) => reading_turns n' stop step s' r'
               | Some Err => Some Err
               | Some Panic => Some Panic
               | None => None
               end
      end
  end.
(** read.rs:791-868 [read_office_body]: as [body_step], with the table read turn by turn. *)
Definition body_turn (n : nat) (ign : bool) (w : workbook) (e : event) (r : list event) : option (res (workbook * list event)) :=
  match e with
  | EStart t _ =>
      if str_eqb t t_table then
        match read_table_turns n ign (e :: r) with
        | Some x => Some (let* (s, r') := x in Ok (put_sheets (wb_sheets w ++ [s]) w, r'))
        | None => None
        end
      else Some (body_step ign w e r)
  | _ => Some (body_step ign w e r)
  end.
Definition body_turns (n : nat) (ign : bool) (w : workbook) (r : list event) : option (res (workbook * list event)) :=
  match reading_turns n (Some t_body) (body_turn n ign) w r with
  | Some x => Some (let* (p, r') := x in Ok (snd p, r'))
  | None => None
  end.
(** read.rs:736-789, 260-322, 324-354: as [content_step], [fods_step] and [fods_only_step]. *)
Definition file_turn (step : workbook -> event -> list event -> res (workbook * list event)) (n : nat) (ign : bool) (w : workbook) (e : event) (r : list event)
  : option (res (workbook * list event)) :=
  match e with
  | EStart t _ => if str_eqb t t_body then body_turns n ign w r else Some (step w e r)
  | _ => Some (step w e r)
  end.
Definition file_turns (step : workbook -> event -> list event -> res (workbook * list event)) (n : nat) (ign : bool) (w : workbook) (text : str) : option (res workbook) :=
  match read_events text with
  | Ok evs =>
      match reading_turns n None (file_turn step n ign) w evs with
      | Some x => Some (let* (p, _) := x in Ok (snd p))
      | None => None
      end
  | Err => Some Err
  | Panic => Some Panic
  end.
Definition calc_turns (rep : bool) (x : option (res workbook)) : option (res workbook) :=
  match x with Some y => Some (let* w := y in calc_book rep w) | None => None end.
(** read.rs:357-430: see [read_ods] and the other three. *)
Definition ods_turns (n : nat) (ign rep : bool) (c0 : citem) (f : files) : option (res workbook) :=
  match (let* w := read_file meta_file_step (work0 c0) (fl_meta f) in
         let* w := read_file settings_file_step w (fl_settings f) in
         read_file styles_file_step w (fl_styles f)) with
  | Ok w => calc_turns rep (file_turns (content_step ign) n ign w (fl_content f))
  | Err => Some Err
  | Panic => Some Panic
  end.
Definition ods_only_turns (n : nat) (ign rep : bool) (c0 : citem) (f : files) : option (res workbook) :=
  calc_turns rep (file_turns (content_step ign) n ign (work0 c0) (fl_content f)).
Definition fods_turns (n : nat) (ign rep : bool) (c0 : citem) (text : str) : option (res workbook) :=
  calc_turns rep (file_turns (fods_step ign) n ign (work0 c0) text).
Definition fods_only_turns (n : nat) (ign rep : bool) (c0 : citem) (text : str) : option (res workbook) :=
  calc_turns rep (file_turns (fods_only_step ign) n ign (work0 c0) text).
