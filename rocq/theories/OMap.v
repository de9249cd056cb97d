(** Ordered maps: std's [BTreeMap] as a list sorted by strictly increasing key.
    The order is a boolean [ltb]; keys are equal if neither is smaller. *)
From Verif Require Import Base.

Section OMap.
  Context {K V : Type} (ltb : K -> K -> bool).

  Definition omap := list (K * V).

  (** [BTreeMap::get] *)
  Fixpoint om_get (k : K) (m : omap) : option V :=
    match m with
    | [] => None
    | (k', v) :: m' => if ltb k k' then None else if ltb k' k then om_get k m' else Some v
    end.

  (** [BTreeMap::contains_key] *)
  Definition om_mem (k : K) (m : omap) : bool := match om_get k m with Some _ => true | None => false end.

  (** [BTreeMap::insert] *)
  Fixpoint om_insert (k : K) (v : V) (m : omap) : omap :=
    match m with
    | [] => [(k, v)]
    | (k', v') :: m' =>
        if ltb k k' then (k, v) :: m
        else if ltb k' k then (k', v') :: om_insert k v m'
        else (k, v) :: m'
    end.

  (** [BTreeMap::remove] *)
  Fixpoint om_remove (k : K) (m : omap) : omap :=
    match m with
    | [] => []
    | (k', v') :: m' =>
        if ltb k k' then m
        else if ltb k' k then (k', v') :: om_remove k m'
        else m'
    end.

  (** [entry(k).or_insert(d)] followed by a modification. *)
  Definition om_upsert (k : K) (d : V) (f : V -> V) (m : omap) : omap :=
    om_insert k (f (match om_get k m with Some v => v | None => d end)) m.

  (** [get_mut(k)] followed by a modification. *)
  Definition om_adjust (k : K) (f : V -> V) (m : omap) : omap :=
    match om_get k m with Some v => om_insert k (f v) m | None => m end.

  (** Keys strictly increasing: the representation invariant. *)
  Fixpoint om_sorted (m : omap) : Prop :=
    match m with
    | [] => True
    | (k, _) :: m' => Forall (fun kv => ltb k (fst kv) = true) m' /\ om_sorted m'
    end.

  (** Range bounds, std's [Bound]. *)
  Inductive bound := Included (k : K) | Excluded (k : K) | Unbounded.
  Definition above (b : bound) (k : K) : bool :=
    match b with Included s => negb (ltb k s) | Excluded s => ltb s k | Unbounded => true end.
  Definition below (b : bound) (k : K) : bool :=
    match b with Included e => negb (ltb e k) | Excluded e => ltb k e | Unbounded => true end.

  (** [BTreeMap::range]: panics if start > end or if start = end and both are excluded. *)
  Definition om_range (lo hi : bound) (m : omap) : res omap :=
    let ok := match lo, hi with
      | Excluded s, Excluded e => ltb s e
      | Included s, (Included e | Excluded e) => negb (ltb e s)
      | Excluded s, Included e => negb (ltb e s)
      | _, _ => true
      end in
    if ok then Ok (filter (fun kv => above lo (fst kv) && below hi (fst kv)) m) else Panic.
End OMap.
Arguments omap : clear implicits.
Arguments bound : clear implicits.
Arguments Included {K} _.
Arguments Excluded {K} _.
Arguments Unbounded {K}.

(** Orders used as keys. *)
Definition pos : Type := N * N.
Definition pltb (a b : pos) : bool := (fst a <? fst b) || ((fst a =? fst b) && (snd a <? snd b)).
