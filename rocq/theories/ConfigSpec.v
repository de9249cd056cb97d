(** Specification of the settings tree. *)
From Verif Require Import Base BookModel CellModel NumModel NumSpec XmlSpec CellIoSpec ConfigModel.

(** The tree a user sees: maps are lists of pairs. *)
Inductive tree : Type := Leaf (v : cvalue) | Node (k : ckind) (l : list (str * tree)).

Fixpoint plain (x : citem) : tree :=
  match x with
  | CVal v => Leaf v
  | CBranch k (CMap _ vals) => Node k (map (fun kv => (fst kv, plain (snd kv))) vals)
  end.
(** Position of a key. *)
Fixpoint pos_of (k : str) (keys : list str) : option nat :=
  match keys with [] => None | a :: r => if str_eqb a k then Some O else option_map S (pos_of k r) end.
(** Keys are distinct and the index gives their positions. Of two such maps Rust's [==] is the equality of the lists of pairs. *)
Definition indexed (ix : amap nat) (keys : list str) : Prop := NoDup keys /\ forall k, am_get k ix = pos_of k keys.
Fixpoint sound (x : citem) : Prop :=
  match x with
  | CVal _ => True
  | CBranch _ (CMap ix vals) => indexed ix (map fst vals) /\
      (fix all (l : list (str * citem)) := match l with [] => True | kv :: r => sound (snd kv) /\ all r end) vals
  end.

(** ** Lookup and insertion on lists of pairs *)

Fixpoint assoc {T} (k : str) (l : list (str * T)) : option T :=
  match l with [] => None | (a, x) :: r => if str_eqb a k then Some x else assoc k r end.
(** A new key comes last, an old key keeps its place. *)
Fixpoint assoc_put {T} (k : str) (x : T) (l : list (str * T)) : list (str * T) :=
  match l with [] => [(k, x)] | (a, y) :: r => if str_eqb a k then (a, x) :: r else (a, y) :: assoc_put k x r end.
Fixpoint look (p : list str) (t : tree) : option tree :=
  match p, t with
  | [], _ => Some t
  | k :: r, Node _ l => match assoc k l with Some u => look r u | None => None end
  | _ :: _, Leaf _ => None
  end.
(** Insertion of [x] as [n] into the map at the end of the path; maps that are missing are made. *)
Fixpoint put_at (p : list (str * ctype)) (n : str) (x : tree) (t : tree) : tree :=
  match t, p with
  | Leaf _, _ => t
  | Node k l, [] => Node k (assoc_put n x l)
  | Node k l, (a, ty) :: r =>
      let u := match assoc a l with Some u => u | None => Node (match ty with Some k => k | None => KSet end) [] end in
      Node k (assoc_put a (put_at r n x u) l)
  end.
(** Every map on the path is missing or has the type asked for. *)
Fixpoint fits (p : list (str * ctype)) (t : tree) : Prop :=
  match t, p with
  | Leaf _, _ => False
  | Node _ _, [] => True
  | Node _ l, (a, ty) :: r =>
      match ty with
      | None => False
      | Some k => match assoc a l with
                  | Some (Node k' m) => k' = k /\ fits r (Node k' m)
                  | Some (Leaf _) => False
                  | None => Forall (fun q => snd q <> None) r
                  end
      end
  end.

(** ** Trees the file format can hold *)

Definition value_ok (v : cvalue) : Prop :=
  match v with
  | VBase64 s => raw_text_ok s
  | VBool _ | VString _ => True
  | VDateTime d => valid_datetime d /\ (dt_year d <= 9999)%Z
  | VDouble t => number_text t
  | VInt z => (-2147483648 <= z <= 2147483647)%Z
  | VLong z => (-9223372036854775808 <= z <= 9223372036854775807)%Z
  | VShort z => (-32768 <= z <= 32767)%Z
  end.
(** Entries are found in maps, and nothing else is. *)
Definition child_ok (k : ckind) (t : tree) : Prop :=
  match k with
  | KSet | KEntry => match t with Node KEntry _ => False | _ => True end
  | KVec | KMap => match t with Node KEntry _ => True | _ => False end
  end.
Fixpoint tree_with (V : cvalue -> Prop) (t : tree) : Prop :=
  match t with
  | Leaf v => V v
  | Node k l => (k = KVec -> map fst l = map show_N (map N.of_nat (seq 0 (length l)))) /\
      (fix all (l : list (str * tree)) := match l with [] => True | kv :: r => (child_ok k (snd kv) /\ tree_with V (snd kv)) /\ all r end) l
  end.
Definition tree_ok : tree -> Prop := tree_with value_ok.
(** At the top there are only sets. *)
Definition settings_with (V : cvalue -> Prop) (t : tree) : Prop :=
  exists l, t = Node KSet l /\ tree_with V t /\ Forall (fun kv => exists m, snd kv = Node KSet m) l.
Definition settings_ok : tree -> Prop := settings_with value_ok.
(** The same without conditions on the values. *)
Definition settings_shape : tree -> Prop := settings_with (fun _ => True).

(** Without the empty texts. *)
Definition blank (t : tree) : bool := match t with Leaf (VString []) | Leaf (VBase64 []) => true | _ => false end.
Fixpoint strip (t : tree) : tree :=
  match t with
  | Leaf v => Leaf v
  | Node k l => Node k (flat_map (fun kv => if blank (snd kv) then [] else [(fst kv, strip (snd kv))]) l)
  end.
Fixpoint no_blank (t : tree) : Prop :=
  match t with
  | Leaf _ => True
  | Node k l => (fix all (l : list (str * tree)) := match l with [] => True | kv :: r => (blank (snd kv) = false /\ no_blank (snd kv)) /\ all r end) l
  end.
