(** Model of src/attrmap2.rs: [AttrMap2], two parallel vectors. *)
From Verif Require Import Base.

(** attrmap2.rs:14-17 *)
Record attrmap := mkAttr { am_keys : list str; am_values : list str }.
Definition am_new : attrmap := mkAttr [] [].

(** attrmap2.rs:78-84 [find_idx]: first position of the key. *)
Fixpoint find_idx (k : str) (keys : list str) : option nat :=
  match keys with
  | [] => None
  | x :: keys' => if str_eqb x k then Some O else option_map S (find_idx k keys')
  end.

(** [v[idx] = x]; out of bounds cannot be written. *)
Fixpoint set_nth {A} (n : nat) (x : A) (l : list A) : list A :=
  match n, l with
  | _, [] => []
  | O, _ :: l' => x :: l'
  | S n', y :: l' => y :: set_nth n' x l'
  end.

(** [Vec::remove]. *)
Fixpoint remove_nth {A} (n : nat) (l : list A) : list A :=
  match n, l with
  | _, [] => []
  | O, _ :: l' => l'
  | S n', y :: l' => y :: remove_nth n' l'
  end.

(** attrmap2.rs:59-69 [set_attr] *)
Definition am_set (k v : str) (m : attrmap) : attrmap :=
  match find_idx k (am_keys m) with
  | Some i => mkAttr (set_nth i k (am_keys m)) (set_nth i v (am_values m))
  | None => mkAttr (am_keys m ++ [k]) (am_values m ++ [v])
  end.

(** attrmap2.rs:72-75 [push_attr] *)
Definition am_push (k v : str) (m : attrmap) : attrmap :=
  mkAttr (am_keys m ++ [k]) (am_values m ++ [v]).

(** attrmap2.rs:50-55 [add_all] *)
Definition am_add_all (l : list (str * str)) (m : attrmap) : attrmap :=
  fold_left (fun m kv => am_push (fst kv) (snd kv) m) l m.

(** attrmap2.rs:88-96 [clear_attr]; index panics if the vectors disagree. *)
Definition am_clear (k : str) (m : attrmap) : res (attrmap * option str) :=
  match find_idx k (am_keys m) with
  | Some i =>
      match nth_error (am_values m) i with
      | Some v => Ok (mkAttr (remove_nth i (am_keys m)) (remove_nth i (am_values m)), Some v)
      | None => Panic
      end
  | None => Ok (m, None)
  end.

(** attrmap2.rs:100-107 [attr] *)
Definition am_attr (k : str) (m : attrmap) : res (option str) :=
  match find_idx k (am_keys m) with
  | Some i => match nth_error (am_values m) i with Some v => Ok (Some v) | None => Panic end
  | None => Ok None
  end.

(** attrmap2.rs:111-121 [attr_def] *)
Definition am_attr_def (k : str) (d : str) (m : attrmap) : res str :=
  let* o := am_attr k m in Ok (match o with Some v => v | None => d end).

(** attrmap2.rs:152-161 iteration; [unreachable!] if the lengths differ. *)
Fixpoint zip_exact (ks vs : list str) : res (list (str * str)) :=
  match ks, vs with
  | k :: ks', v :: vs' => let* l := zip_exact ks' vs' in Ok ((k, v) :: l)
  | [], [] => Ok []
  | _, _ => Panic
  end.
Definition am_iter (m : attrmap) : res (list (str * str)) := zip_exact (am_keys m) (am_values m).

(** attrmap2.rs:38-40 [is_empty], 128-130 [len] *)
Definition am_is_empty (m : attrmap) : bool := match am_keys m with [] => true | _ => false end.
Definition am_len (m : attrmap) : nat := length (am_keys m).

(** One public mutation. *)
Inductive am_op := OpSet (k v : str) | OpClear (k : str).
Definition am_step (m : res attrmap) (o : am_op) : res attrmap :=
  let* m := m in
  match o with
  | OpSet k v => Ok (am_set k v m)
  | OpClear k => let* (m', _) := am_clear k m in Ok m'
  end.
Definition am_run (ops : list am_op) : res attrmap := fold_left am_step ops (Ok am_new).
