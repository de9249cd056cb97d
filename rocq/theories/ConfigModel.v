(** The settings tree (config.rs), its text form (settings.xml) and the view options kept in it. *)
From Verif Require Import Base BookModel CellModel NumModel EnumModel XmlModel.

(** ** The tree *)

(** config.rs:14-25. Floats are carried as their text. *)
Inductive cvalue : Type :=
| VBase64 (s : str) | VBool (b : bool) | VDateTime (d : datetime) | VDouble (t : str)
| VInt (z : Z) | VLong (z : Z) | VShort (z : Z) | VString (s : str).

(** config.rs:100-104 [ConfigMap]: the values in insertion order, and for each key its position. *)
Record cmap (T : Type) : Type := CMap { cm_index : amap nat; cm_vals : list (str * T) }.
Arguments CMap {T}. Arguments cm_index {T}. Arguments cm_vals {T}.
(** config.rs:106-111. *)
Definition cm_new {T} : cmap T := CMap [] [].
Section Maps.
  Context {T : Type}.
  Implicit Types m : cmap T.
  (** config.rs:121-139 [insert]. *)
  Definition cm_insert (name : str) (x : T) m : res (cmap T) :=
    match am_get name (cm_index m) with
    | Some i =>
        match nth_error (cm_vals m) i with
        | Some (k, _) => Ok (CMap (cm_index m) (set_nth i (k, x) (cm_vals m)))
        | None => Panic (* unreachable!() *)
        end
    | None => Ok (CMap (am_put name (length (cm_vals m)) (cm_index m)) (cm_vals m ++ [(name, x)]))
    end.
  (** config.rs:142-153 [get]. *)
  Definition cm_get (name : str) m : option T :=
    match am_get name (cm_index m) with Some i => option_map snd (nth_error (cm_vals m) i) | None => None end.
  (** config.rs:156-174 [get_or_create]; the reference it returns is used through [f], which gives the new item. *)
  Definition cm_update (name : str) (dflt : res T) (f : T -> res T) m : res (cmap T) :=
    let* m1 := match am_get name (cm_index m) with
               | Some _ => Ok m
               | None => let* d := dflt in Ok (CMap (am_put name (length (cm_vals m)) (cm_index m)) (cm_vals m ++ [(name, d)]))
               end in
    match am_get name (cm_index m1) with
    | Some i => match nth_error (cm_vals m1) i with
                | Some (k, x) => let* y := f x in Ok (CMap (cm_index m1) (set_nth i (k, y) (cm_vals m1)))
                | None => Panic
                end
    | None => Panic
    end.
End Maps.

(** config.rs:195-201 and 247-253: the classes of items; values and the four kinds of maps. *)
Inductive ckind : Type := KSet | KVec | KMap | KEntry.
Definition ckind_eqb (a b : ckind) : bool :=
  match a, b with KSet, KSet | KVec, KVec | KMap, KMap | KEntry, KEntry => true | _, _ => false end.
Inductive citem : Type := CVal (v : cvalue) | CBranch (k : ckind) (m : cmap citem).
(** [None] is [ConfigItemType::Value]. *)
Definition ctype := option ckind.
(** config.rs:277-285 [ConfigItem::new]. *)
Definition ci_new (t : ctype) : res citem := match t with Some k => Ok (CBranch k cm_new) | None => Panic end.
(** config.rs:233-243. *)
Definition has_type (t : ctype) (x : citem) : bool :=
  match t, x with None, CVal _ => true | Some k, CBranch k' _ => ckind_eqb k k' | _, _ => false end.
(** config.rs:364-374 [ConfigItem::insert]. *)
Definition ci_insert (name : str) (x : citem) (i : citem) : res citem :=
  match i with CBranch k m => let* m' := cm_insert name x m in Ok (CBranch k m') | CVal _ => Panic end.
(** config.rs:398-430 [create_path]; the reference it returns is used through [f]. *)
Fixpoint ci_path (p : list (str * ctype)) (f : citem -> res citem) (i : citem) : res citem :=
  match i with
  | CVal _ => Panic
  | CBranch k m =>
      match p with
      | [] => f i
      | (name, t) :: r =>
          let* m' := cm_update name (ci_new t) (fun x => if has_type t x then ci_path r f x else Panic) m in
          Ok (CBranch k m')
      end
  end.
(** config.rs:433-455 [get_rec]. *)
Fixpoint ci_get (p : list str) (i : citem) : option citem :=
  match i, p with
  | _, [] => Some i
  | CBranch _ m, name :: r => match cm_get name m with Some x => ci_get r x | None => None end
  | CVal _, _ :: _ => None
  end.
(** config.rs:458-482 [get_value_rec]. *)
Fixpoint ci_get_value (p : list str) (i : citem) : option cvalue :=
  match i, p with
  | CBranch _ m, name :: r => match cm_get name m with Some x => ci_get_value r x | None => None end
  | CBranch _ _, [] => None
  | CVal v, [] => Some v
  | CVal _, _ :: _ => None
  end.
(** config.rs:485-500 [Config::new]: the root is a set. *)
Definition config0 : citem := CBranch KSet cm_new.

(** ** Writing: write.rs:943-1139 *)

Definition t_item : str := lit "config:config-item".
Definition t_settings : str := lit "office:settings".
Definition kind_tag (k : ckind) : str :=
  match k with
  | KSet => lit "config:config-item-set"
  | KVec => lit "config:config-item-map-indexed"
  | KMap => lit "config:config-item-map-named"
  | KEntry => lit "config:config-item-map-entry"
  end.
Definition a_name : str := lit "config:name".
Definition a_type : str := lit "config:type".
Definition value_type (v : cvalue) : str :=
  match v with
  | VBase64 _ => lit "base64Binary" | VBool _ => lit "boolean" | VDateTime _ => lit "datetime" | VDouble _ => lit "double"
  | VInt _ => lit "int" | VLong _ => lit "long" | VShort _ => lit "short" | VString _ => lit "string"
  end.
Definition value_text (v : cvalue) : str :=
  match v with
  | VBase64 s => s | VBool b => show_bool b | VDateTime d => format_datetime d | VDouble t => t
  | VInt z | VLong z | VShort z => show_Z z | VString s => s
  end.
Definition value_empty (v : cvalue) : bool := match v with VBase64 [] | VString [] => true | _ => false end.
(** write.rs:1086-1139 [write_config_item]. *)
Definition write_value (name : str) (v : cvalue) : list call :=
  [CElemIf (negb (value_empty v)) t_item; CAttrEsc a_name name; CAttr a_type (value_type v);
   (match v with VString s => CTextEsc s | _ => CText (value_text v) end); CEndIf (negb (value_empty v)) t_item].
(** Which items may stand in a map of which kind; the others are a panic (write.rs:976-986, 1004-1017, 1038-1052, 1069-1079). *)
Definition may_hold (k : ckind) (x : citem) : bool :=
  match k, x with
  | _, CVal _ => true
  | KSet, CBranch KEntry _ | KEntry, CBranch KEntry _ => false
  | KSet, _ | KEntry, _ => true
  | _, CBranch KEntry _ => true
  | _, _ => false
  end.
(** write.rs:1001-1023: entries "0", "1", … up to the first number that is no key. *)
Fixpoint vec_loop (n : nat) (i : N) (index : amap nat) (parts : list (res (list call))) : res (list call) :=
  match n with
  | O => Err
  | S n' =>
      match am_get (show_N i) index with
      | Some j => match nth_error parts j with
                  | Some c => let* a := c in let* b := vec_loop n' (i + 1) index parts in Ok (a ++ b)
                  | None => Ok []
                  end
      | None => Ok []
      end
  end.
Fixpoint concat_res (l : list (res (list call))) : res (list call) :=
  match l with [] => Ok [] | c :: r => let* a := c in let* b := concat_res r in Ok (a ++ b) end.
(** write.rs:968-1084 [write_config_item_set], [.._map_indexed], [.._map_named], [.._map_entry]; an entry of an indexed map has no name,
    a value in an indexed map gets the name of the map. *)
Fixpoint write_item (name : option str) (x : citem) : res (list call) :=
  match x with
  | CVal v => Ok (write_value (match name with Some n => n | None => [] end) v)
  | CBranch k (CMap index vals) =>
      let part := fun kv : str * citem => if may_hold k (snd kv)
        then write_item (match k, snd kv with KVec, CVal _ => name | KVec, _ => None | _, _ => Some (fst kv) end) (snd kv)
        else Panic in
      let* body := match k with
                   | KVec => vec_loop (S (length vals)) 0 index (map part vals)
                   | _ => concat_res (map part vals)
                   end in
      Ok ([CElem (kind_tag k)] ++ (match name with Some n => [CAttrEsc a_name n] | None => [] end) ++ body ++ [CEnd (kind_tag k)])
  end.
(** write.rs:943-966 [write_office_settings]. *)
Definition write_settings (c : citem) : res (list call) :=
  match c with
  | CVal _ => Ok [CElem t_settings; CEnd t_settings]
  | CBranch _ m =>
      let* body := concat_res (map (fun kv => match snd kv with CBranch KSet _ => write_item (Some (fst kv)) (snd kv) | _ => Panic end) (cm_vals m)) in
      Ok ([CElem t_settings] ++ body ++ [CEnd t_settings])
  end.
(** write.rs:912-941: the document around it; [ns] are the namespaces and the version. *)
Definition write_ods_settings (ns : list (str * str)) (c : citem) : res (list call) :=
  let* s := write_settings c in
  Ok ([CDtd (lit "UTF-8"); CElem (lit "office:document-settings")] ++ map (fun kv => CAttrEsc (fst kv) (snd kv)) ns
      ++ s ++ [CEnd (lit "office:document-settings")]).

(** ** Reading: read.rs:4230-4701. The functions call each other for nested items; here they are one loop over the
    events with the functions still running on a stack. *)

(** A map being read: its kind, its name, what is read so far, and the next index. The name of the root is not used. *)
Record cframe : Type := CFrame { fr_kind : option ckind; fr_name : option str; fr_map : cmap citem; fr_index : N }.
(** An item being read (read.rs:4569-4701): name, type, text so far. *)
Record cpending : Type := CPending { pe_name : str; pe_type : str; pe_text : str }.
Inductive cstate : Type :=
| COutside (c : option citem)                                 (* not in office:settings; the settings read so far *)
| CInside (c : option citem) (item : option cpending) (st : list cframe).

(** The last attribute of that name counts. *)
Fixpoint get_attr (n : str) (a : list (str * str)) : option str :=
  match a with [] => None | (k, v) :: r => match get_attr n r with Some w => Some w | None => if str_eqb k n then Some v else None end end.
Definition value_types : list str :=
  [lit "base64Binary"; lit "boolean"; lit "datetime"; lit "double"; lit "int"; lit "long"; lit "short"; lit "string"].
(** read.rs:4590-4634: an unknown type is an error, a missing name or type as well. The code compares the type before
    entities are resolved; this makes a difference only for a type written with entities. *)
Definition start_item (a : list (str * str)) : res cpending :=
  match get_attr a_name a, get_attr a_type a with
  | Some n, Some t =>
      if forallb (fun kv => negb (str_eqb (fst kv) a_type) || existsb (str_eqb (snd kv)) value_types) a then Ok (CPending n t []) else Err
  | _, _ => Err
  end.
(** read.rs:4649-4680. *)
Definition parse_value (t s : str) : res cvalue :=
  if str_eqb t (lit "base64Binary") then Ok (VBase64 s)
  else if str_eqb t (lit "boolean") then let* b := parse_bool s in Ok (VBool b)
  else if str_eqb t (lit "datetime") then let* d := parse_datetime s in Ok (VDateTime d)
  else if str_eqb t (lit "double") then let* f := parse_f64 s in Ok (VDouble f)
  else if str_eqb t (lit "int") then let* z := parse_i32 s in Ok (VInt z)
  else if str_eqb t (lit "long") then let* z := parse_i64 s in Ok (VLong z)
  else if str_eqb t (lit "short") then let* z := parse_i16 s in Ok (VShort z)
  else Ok (VString s).
(** read.rs:4276, 4332-4353, 4409, 4471, 4528-4553: which start tags a function looks at. [Some None] is a config-item. The root only knows sets. *)
Definition child_kind (k : option ckind) (n : str) : option ctype :=
  match k with
  | None => if str_eqb n (kind_tag KSet) then Some (Some KSet) else None
  | Some KSet | Some KEntry =>
      if str_eqb n t_item then Some None
      else if str_eqb n (kind_tag KSet) then Some (Some KSet)
      else if str_eqb n (kind_tag KVec) then Some (Some KVec)
      else if str_eqb n (kind_tag KMap) then Some (Some KMap) else None
  | Some KVec | Some KMap => if str_eqb n (kind_tag KEntry) then Some (Some KEntry) else None
  end.
Definition end_tag (k : option ckind) : str := match k with None => t_settings | Some k => kind_tag k end.
(** What a function does with an item a function it called has read. *)
Definition frame_put (name : option str) (x : citem) (f : cframe) : res cframe :=
  match fr_kind f, name with
  | Some KVec, _ => let* m := cm_insert (show_N (fr_index f)) x (fr_map f) in Ok (CFrame (fr_kind f) (fr_name f) m (fr_index f + 1))
  | _, Some n => let* m := cm_insert n x (fr_map f) in Ok (CFrame (fr_kind f) (fr_name f) m (fr_index f))
  | _, None => Err
  end.
Definition frame_item (f : cframe) : citem := CBranch (match fr_kind f with Some k => k | None => KSet end) (fr_map f).
(** A start tag. Sets and maps need a name (read.rs:4320-4324, 4392-4398, 4454-4460, in a named map 4473-4479), entries do not. *)
Definition cstart (n : str) (a : list (str * str)) (c : option citem) (st : list cframe) : res cstate :=
  match st with
  | [] => Panic
  | f :: _ =>
      match child_kind (fr_kind f) n with
      | None => Ok (CInside c None st)
      | Some None => let* p := start_item a in Ok (CInside c (Some p) st)
      | Some (Some k) =>
          match k, get_attr a_name a with
          | KEntry, nm => Ok (CInside c None (CFrame (Some k) nm cm_new 0 :: st))
          | _, Some nm => Ok (CInside c None (CFrame (Some k) (Some nm) cm_new 0 :: st))
          | _, None => Err
          end
      end
  end.
Definition cend (n : str) (c : option citem) (st : list cframe) : res cstate :=
  match st with
  | [] => Panic
  | f :: st' =>
      if str_eqb n (end_tag (fr_kind f)) then
        match st' with
        | [] => Ok (COutside (Some (frame_item f)))
        | g :: st2 => let* g' := frame_put (fr_name f) (frame_item f) g in Ok (CInside c None (g' :: st2))
        end
      else Ok (CInside c None st)
  end.
Definition cstep (e : event) (s : cstate) : res cstate :=
  match s with
  | COutside c =>
      match e with
      | EStart n _ => if str_eqb n t_settings then Ok (CInside c None [CFrame None None cm_new 0]) else Ok s
      | _ => Ok s
      end
  | CInside c (Some p) st =>
      match e with
      | EText t => Ok (CInside c (Some (CPending (pe_name p) (pe_type p) (pe_text p ++ t))) st)
      | ERef t => let* v := entity t in Ok (CInside c (Some (CPending (pe_name p) (pe_type p) (pe_text p ++ v))) st)
      | EEnd n =>
          if str_eqb n t_item then
            let* v := parse_value (pe_type p) (pe_text p) in
            match st with
            | f :: st' => let* f' := frame_put (Some (pe_name p)) (CVal v) f in Ok (CInside c None (f' :: st'))
            | [] => Panic
            end
          else Ok s
      | _ => Ok s
      end
  | CInside c None st =>
      match e with
      | EStart n a => cstart n a c st
      | EEnd n => cend n c st
      | _ => Ok s
      end
  end.
Fixpoint crun (evs : list event) (s : cstate) : res cstate :=
  match evs with [] => Ok s | e :: r => let* s' := cstep e s in crun r s' end.
(** The end of the file inside the settings cannot come, [read_events] has checked the nesting. [None]: nothing was read,
    the workbook keeps the settings it was made with. *)
Definition read_settings (evs : list event) : res (option citem) :=
  let* s := crun evs (COutside None) in
  match s with COutside c => Ok c | CInside _ _ _ => Err end.
