(** What is set is what is returned, and nothing else changes (C67). *)
From Verif Require Import Base Lib NumModel XmlModel CellModel BookModel StyleModel StyleProps AccModel.
Require Import String.

(** ** What the names of functions say *)

Fixpoint after (p s : str) : option str :=
  match p, s with
  | [], _ => Some s
  | c :: p', d :: s' => if N.eqb c d then after p' s' else None
  | _, [] => None
  end.
Definition before (p s : str) : option str := option_map (@rev char) (after (rev p) (rev s)).
Definition starts (p : string) (s : str) : bool := if after (lit p) s then true else false.
Definition ends (p : string) (s : str) : bool := if before (lit p) s then true else false.
Inductive verb := VSet | VClear | VAdd | VRemove | VMake | VMut | VGet.
Definition verb_of (n : str) : verb :=
  if starts "set_" n then VSet else if starts "clear_" n then VClear else if starts "push_" n || starts "add_" n then VAdd
  else if starts "remove_" n then VRemove else if starts "absolute" n then VMake else if ends "_mut" n then VMut else VGet.
(** The thing that is meant: the name without the verb, underscores, and the mark of the plural. The reference to a style, validation, master page or
    value format is its name, the binary data of an image are in base64. *)
Definition without (f : string -> str -> option str) (ps : list string) (n : str) : str :=
  match find (fun p => if f p n then true else false) ps with Some p => match f p n with Some s => s | None => n end | None => n end.
Definition singular (n : str) : str := if ends "abs" n then n else match before (lit "s") n with Some s => s | None => n end.
Definition known_as : list (str * str) :=
  [(lit "style_ref", lit "name"); (lit "validation_ref", lit "name"); (lit "masterpage_ref", lit "name"); (lit "format_ref", lit "name"); (lit "clear_binary", lit "binarybase64")].
Definition noun_of (n : str) : str :=
  match find (fun x => str_eqb (fst x) n) known_as with
  | Some (_, s) => s
  | None => singular (filter (fun c => negb (N.eqb c 95))
      (without (fun p => before (lit p)) ["_mut"; "_ref"]%string (without (fun p => after (lit p)) ["set_"; "clear_"; "push_"; "add_"; "remove_"; "get_"; "iter_"]%string n)))
  end.
Example nouns_ex : map noun_of [lit "set_row_abs"; lit "add_print_range"; lit "clear_print_ranges"; lit "iter_table_styles"; lit "content_ref"; lit "style_ref"; lit "left_mut"]
  = map lit ["rowabs"; "printrange"; "printrange"; "tablestyle"; "content"; "name"; "left"]%string.
Proof. vm_compute. reflexivity. Qed.
Definition is_reader (n : str) : bool := match verb_of n with VGet | VMut => true | _ => false end.
(** Which things [absolute…] makes absolute. *)
Definition made_absolute (n noun : str) : bool :=
  if str_eqb n (lit "absolute") then ends "abs" noun else if starts "absolute_row" n then ends "rowabs" noun else if starts "absolute_col" n then ends "colabs" noun else false.
(** What a reader returns after a call. *)
Definition expected {A} (yes : A) (w r : str) (arg old : list A) : list A :=
  let same := str_eqb (noun_of w) (noun_of r) in
  match verb_of w with
  | VSet => if same then arg else old
  | VClear => if same then [] else old
  | VAdd => if same then old ++ arg else old
  | VMake => if made_absolute w (noun_of r) then [yes] else old
  | _ => old
  end.
Definition counts : list str := map lit ["set_repeat"; "set_row_span"; "set_col_span"; "set_matrix_row_span"; "set_matrix_col_span"]%string.

(** ** A check of one pair *)

Definition memb (p : str) (l : list str) : bool := existsb (str_eqb p) l.
Definition reader_path (a : action) : option str := match a with ARead p | ALend p => Some p | _ => None end.
Definition pair_ok (w r : accessor) : bool :=
  if (if str_eqb (ac_type w) (ac_type r) then is_reader (ac_name r) else false) then
    match reader_path (ac_act r) with
    | None => false
    | Some q =>
        let same := str_eqb (noun_of (ac_name w)) (noun_of (ac_name r)) in
        match verb_of (ac_name w), ac_act w with
        | VSet, APut p | VSet, APutPos p => Bool.eqb (str_eqb q p) same
        | VClear, AEmpty p => Bool.eqb (str_eqb q p) same
        | VAdd, APush p => Bool.eqb (str_eqb q p) same
        | VMake, AFix ps => Bool.eqb (memb q ps) (made_absolute (ac_name w) (noun_of (ac_name r)))
        | VMut, ALend p => Bool.eqb (str_eqb q p) same
        | VGet, ARead p => Bool.eqb (str_eqb q p) same
        | _, _ => false
        end
    end
  else true.
Lemma fix_get A (yes : A) q ps : forall o, fold_left (fun o p => upd p [yes] o) ps o q = if memb q ps then [yes] else o q.
Proof.
  induction ps as [|p ps IH]; intros o; [reflexivity|]. cbn [fold_left memb existsb]. rewrite IH. unfold upd, memb. destruct (existsb (str_eqb q) ps); [now destruct (str_eqb q p)|].
  now destruct (str_eqb q p).
Qed.
Lemma pair_sound A pos (yes : A) w r arg o o' : pair_ok w r = true -> ac_type w = ac_type r -> is_reader (ac_name r) = true -> call pos yes (ac_act w) arg o = Ok o' ->
  returns (ac_act r) o' = expected yes (ac_name w) (ac_name r) arg (returns (ac_act r) o).
Proof.
  unfold pair_ok. intros P T R H. rewrite R, T, str_eqb_refl in P. unfold expected.
  set (same := str_eqb (noun_of (ac_name w)) (noun_of (ac_name r))) in *.
  assert (X : exists q, reader_path (ac_act r) = Some q /\ forall x : object A, returns (ac_act r) x = x q).
  { destruct (ac_act r); cbn [reader_path] in *; try discriminate; eexists; split; reflexivity. }
  destruct X as (q & E & G). rewrite E in P. rewrite !G. clear G E.
  destruct (verb_of (ac_name w)), (ac_act w) as [p|p|p|p|ps|p|p]; try discriminate P; cbn [call] in H;
    try (destruct (forallb pos arg); [|discriminate H]); injection H as <-; apply Bool.eqb_prop in P; try reflexivity.
  all: try (rewrite fix_get, P; reflexivity).
  all: unfold upd; rewrite P; destruct same; try reflexivity; apply str_eqb_eq in P; now subst.
Qed.
Definition all_ok : bool := forallb (fun w => forallb (pair_ok w) accessors) accessors.
Lemma all_checked : all_ok = true.
Proof. vm_compute. reflexivity. Qed.
Lemma checked w r : In w accessors -> In r accessors -> pair_ok w r = true.
Proof. intros W R. generalize all_checked. unfold all_ok. intros H. rewrite forallb_forall in H. specialize (H _ W). rewrite forallb_forall in H. now apply H. Qed.

(** ** The theorems *)

(** After a call, each function of the same type that returns something returns what was set, nothing if it was cleared, the old and what was added, or what
    it returned before if the call was about something else. *)
Theorem C67_set : forall A pos (yes : A) w r arg o o', In w accessors -> In r accessors -> ac_type w = ac_type r -> is_reader (ac_name r) = true ->
  call pos yes (ac_act w) arg o = Ok o' -> returns (ac_act r) o' = expected yes (ac_name w) (ac_name r) arg (returns (ac_act r) o).
Proof. intros. eapply pair_sound; try eassumption. now apply checked. Qed.
Example C67_set_ex :
  let w := Acc (lit "CellRange") (lit "set_to_row") (APut (lit "to_row.row")) in
  let r := Acc (lit "CellRange") (lit "to_row") (ARead (lit "to_row.row")) in
  let x := Acc (lit "CellRange") (lit "row") (ARead (lit "from_row.row")) in
  In w accessors /\ In r accessors /\ In x accessors /\ is_reader (lit "to_row") = true /\ verb_of (lit "set_to_row") = VSet /\
  (forall o, exists o', call (fun _ => true) 1 (ac_act w) [7] o = Ok o' /\ returns (ac_act r) o' = [7] /\ returns (ac_act x) o' = o (lit "from_row.row")).
Proof.
  repeat apply conj; try (vm_compute; reflexivity).
  1-3: unfold accessors; repeat (apply in_or_app; (left; cbn; repeat (first [left; reflexivity|right]); fail) || right); cbn; repeat (first [left; reflexivity|right]).
  intros o. eexists. split; [reflexivity|]. split; vm_compute; reflexivity.
Qed.

(** What is changed through a [&mut] is what the function of that name returns, and nothing else. *)
Theorem C67_lend : forall A w r (f : list A -> list A) o, In w accessors -> In r accessors -> ac_type w = ac_type r -> is_reader (ac_name r) = true -> verb_of (ac_name w) = VMut ->
  returns (ac_act r) (through (ac_act w) f o) = if str_eqb (noun_of (ac_name w)) (noun_of (ac_name r)) then f (returns (ac_act r) o) else returns (ac_act r) o.
Proof.
  intros A w r f o W R T Q V. generalize (checked w r W R). unfold pair_ok. rewrite Q, T, str_eqb_refl, V.
  set (same := str_eqb (noun_of (ac_name w)) (noun_of (ac_name r))). intros P.
  destruct (ac_act r); cbn [reader_path] in P; try discriminate P; destruct (ac_act w); try discriminate P; apply Bool.eqb_prop in P; cbn [through returns]; unfold upd; rewrite P;
    destruct same; try reflexivity; apply str_eqb_eq in P; now subst.
Qed.
Example C67_lend_ex :
  let w := Acc (lit "HeaderFooter") (lit "center_mut") (ALend (lit "region_center")) in
  let r := Acc (lit "HeaderFooter") (lit "center") (ARead (lit "region_center")) in
  let x := Acc (lit "HeaderFooter") (lit "left") (ARead (lit "region_left")) in
  verb_of (ac_name w) = VMut /\ forall o, returns (ac_act r) (through (ac_act w) (cons 5) o) = 5 :: returns (ac_act r) o /\ returns (ac_act x) (through (ac_act w) (cons 5) o) = returns (ac_act x) o.
Proof. split; [vm_compute; reflexivity|]. intros o. split; vm_compute; reflexivity. Qed.

(** Only counts are refused, and only if they are zero; nothing returns an error. *)
Definition count_ok (w : accessor) : bool := Bool.eqb (match ac_act w with APutPos _ => true | _ => false end) (memb (ac_name w) counts).
Lemma counts_checked : forallb count_ok accessors = true.
Proof. vm_compute. reflexivity. Qed.
Theorem C67_panics : forall A pos (yes : A) w arg o, In w accessors ->
  call pos yes (ac_act w) arg o <> Err /\ (call pos yes (ac_act w) arg o = Panic <-> In (ac_name w) counts /\ forallb pos arg = false).
Proof.
  intros A pos yes w arg o W. generalize counts_checked. intros H. rewrite forallb_forall in H. specialize (H _ W). unfold count_ok in H. apply Bool.eqb_prop in H.
  assert (M : memb (ac_name w) counts = true <-> In (ac_name w) counts).
  { unfold memb. rewrite existsb_exists. split; [intros (x & I & E); apply str_eqb_eq in E; now subst|intros I; eexists; split; [exact I|apply str_eqb_refl]]. }
  rewrite <- M, <- H. destruct (ac_act w); cbn [call]; try (split; [discriminate|split; [discriminate|intros [E _]; discriminate E]]).
  destruct (forallb pos arg); split; try discriminate; split; try discriminate; try (intros [_ E]; discriminate E); auto.
Qed.
Example C67_panics_ex : call (fun n => 0 <? n) 1 (APutPos (lit "repeat")) [0] (fun _ => []) = Panic /\ In (lit "set_repeat") counts
  /\ (exists o, call (fun n => 0 <? n) 1 (APutPos (lit "repeat")) [3] (fun _ => []) = Ok o /\ o (lit "repeat") = [3]).
Proof. split; [reflexivity|]. split; [vm_compute; auto|]. eexists. split; [reflexivity|]. vm_compute. reflexivity. Qed.

(** What can be set, cleared or added to can be read, except the use of a page style (its reader parses). No field is part of another one. *)
Definition readable (w : accessor) : bool :=
  match verb_of (ac_name w) with
  | VSet | VClear | VAdd | VMut => existsb (fun r => if str_eqb (ac_type w) (ac_type r) then is_reader (ac_name r) && str_eqb (noun_of (ac_name w)) (noun_of (ac_name r)) else false) accessors
  | VMake => existsb (fun r => if str_eqb (ac_type w) (ac_type r) then made_absolute (ac_name w) (noun_of (ac_name r)) else false) accessors
  | _ => true
  end.
Definition paths (a : action) : list str := match a with APut p | APutPos p | AEmpty p | APush p | ARead p | ALend p => [p] | AFix ps => ps end.
Definition within (p q : str) : bool := match after p q with Some (c :: _) => N.eqb c 46 | _ => false end.
Lemma readable_checked : forallb (fun w => readable w || (str_eqb (ac_type w) (lit "PageStyle") && str_eqb (noun_of (ac_name w)) (lit "pageusage"))) accessors = true.
Proof. vm_compute. reflexivity. Qed.
Lemma apart_checked : forallb (fun w => forallb (fun r => if str_eqb (ac_type w) (ac_type r) then forallb (fun p => forallb (fun q => negb (within p q)) (paths (ac_act r))) (paths (ac_act w)) else true) accessors) accessors = true.
Proof. vm_compute. reflexivity. Qed.
Theorem C67_readable : (forall w, In w accessors -> match verb_of (ac_name w) with VSet | VClear | VAdd | VMut => True | _ => False end ->
    ac_type w = lit "PageStyle" /\ noun_of (ac_name w) = lit "pageusage"
    \/ exists r, In r accessors /\ ac_type r = ac_type w /\ is_reader (ac_name r) = true /\ noun_of (ac_name r) = noun_of (ac_name w))
  /\ (forall w r p q s, In w accessors -> In r accessors -> ac_type w = ac_type r -> In p (paths (ac_act w)) -> In q (paths (ac_act r)) -> q <> p ++ lit "." ++ s).
Proof.
  split.
  - intros w W V. generalize readable_checked. intros H. rewrite forallb_forall in H. specialize (H _ W). apply orb_prop in H. destruct H as [H|H].
    + right. unfold readable in H. destruct (verb_of (ac_name w)); try contradiction; apply existsb_exists in H; destruct H as (r & R & E);
        destruct (str_eqb (ac_type w) (ac_type r)) eqn:E1; try discriminate E; apply andb_prop in E; destruct E as [E2 E3]; apply str_eqb_eq in E1, E3; exists r; auto.
    + left. apply andb_prop in H. destruct H as [H1 H2]. apply str_eqb_eq in H1, H2. auto.
  - intros w r p q s W R T P Q E. generalize apart_checked. intros H. rewrite forallb_forall in H. specialize (H _ W). rewrite forallb_forall in H. specialize (H _ R).
    rewrite T, str_eqb_refl in H. rewrite forallb_forall in H. specialize (H _ P). rewrite forallb_forall in H. specialize (H _ Q).
    assert (X : after p q = Some (lit "." ++ s)). { subst q. clear. induction p as [|c p IH]; [reflexivity|]. cbn [after app]. now rewrite N.eqb_refl. }
    unfold within in H. rewrite X in H. discriminate H.
Qed.
Example C67_readable_ex : noun_of (lit "set_next_masterpage") = noun_of (lit "next_masterpage") /\ verb_of (lit "set_next_masterpage") = VSet /\ within (lit "row") (lit "row.row_abs") = true.
Proof. vm_compute. auto. Qed.

(** ** Registries *)

Definition rpair_ok (w r : raccessor) : bool :=
  let same := str_eqb (noun_of (ra_name w)) (noun_of (ra_name r)) in
  match (match ra_act r with RLookup q | RLookupMut q | RAll q | RDelete q => Some q | RInsert _ => None end), verb_of (ra_name r) with
  | _, VAdd => true
  | None, _ => false
  | Some q, _ =>
    match verb_of (ra_name w), ra_act w with
    | VAdd, RInsert p | VRemove, RDelete p | VMut, RLookupMut p | VGet, RLookup p | VGet, RAll p => Bool.eqb (str_eqb q p) same
    | _, _ => false
    end
  end.
Lemma rchecked : forallb (fun w => forallb (rpair_ok w) raccessors) raccessors = true.
Proof. vm_compute. reflexivity. Qed.
(** A workbook returns under a name what was added under it last, unless that was removed; what is taken out is what was there; the other names and the
    other kinds are as before. *)
Theorem C67_registry : forall A w r k k' (x : A) f o, In w raccessors -> In r raccessors -> verb_of (ra_name r) <> VAdd ->
  let old := rreturns (ra_act r) k' o in
  let hit := str_eqb (noun_of (ra_name w)) (noun_of (ra_name r)) && str_eqb k' k in
  rreturns (ra_act r) k' (rcall (ra_act w) k x o) = (match verb_of (ra_name w) with VAdd => if hit then Some x else old | VRemove => if hit then None else old | _ => old end)
  /\ rreturns (ra_act r) k' (rthrough (ra_act w) f k o) = (match verb_of (ra_name w) with VMut => if hit then option_map f old else old | _ => old end).
Proof.
  intros A w r k k' x f o W R V. cbv zeta. generalize rchecked. intros H. rewrite forallb_forall in H. specialize (H _ W). rewrite forallb_forall in H. specialize (H _ R).
  unfold rpair_ok in H. set (same := str_eqb (noun_of (ra_name w)) (noun_of (ra_name r))) in *.
  assert (X : exists q, (match ra_act r with RLookup q | RLookupMut q | RAll q | RDelete q => Some q | RInsert _ => None end) = Some q /\ forall m : registries A, rreturns (ra_act r) k' m = m q k').
  { destruct (ra_act r); try (eexists; split; reflexivity). destruct (verb_of (ra_name r)); try discriminate H. now elim V. }
  destruct X as (q & E & G). rewrite E in H. rewrite !G. clear E G.
  assert (Y : match verb_of (ra_name w), ra_act w with
    | VAdd, RInsert p | VRemove, RDelete p | VMut, RLookupMut p | VGet, RLookup p | VGet, RAll p => Bool.eqb (str_eqb q p) same | _, _ => false end = true).
  { destruct (verb_of (ra_name r)); try exact H. now elim V. }
  clear H. destruct (verb_of (ra_name w)), (ra_act w); try discriminate Y; apply Bool.eqb_prop in Y; cbn [rcall rthrough]; unfold rupd; rewrite ?Y; split; try reflexivity.
  destruct same; [|reflexivity]. apply str_eqb_eq in Y. subst q. destruct (str_eqb k' k) eqn:K; [|reflexivity]. apply str_eqb_eq in K. now subst.
Qed.
Example C67_registry_ex : rreturns (RLookup (lit "rowstyles")) (lit "a") (rcall (RInsert (lit "rowstyles")) (lit "a") 7 (fun _ _ => None)) = Some 7
  /\ rreturns (RLookup (lit "colstyles")) (lit "a") (rcall (RInsert (lit "rowstyles")) (lit "a") 7 (fun _ _ => None)) = None
  /\ verb_of (lit "add_rowstyle") = VAdd /\ noun_of (lit "add_rowstyle") = noun_of (lit "iter_rowstyles") /\ noun_of (lit "add_rowstyle") <> noun_of (lit "colstyle").
Proof. vm_compute. repeat split. discriminate. Qed.
(** Each registry can be added to, looked up, listed, changed and, but for the default styles, removed from. *)
Definition offers (v : verb) (all : bool) (n : str) : bool :=
  existsb (fun r => str_eqb (noun_of (ra_name r)) n && (match verb_of (ra_name r), v with VAdd, VAdd | VRemove, VRemove | VMut, VMut => true | VGet, VGet => Bool.eqb (starts "iter_" (ra_name r)) all | _, _ => false end)) raccessors.
Theorem C67_offered : forall r, In r raccessors -> noun_of (ra_name r) <> lit "defstyle" ->
  forall v all, In (v, all) [(VAdd, false); (VRemove, false); (VMut, false); (VGet, false); (VGet, true)] -> offers v all (noun_of (ra_name r)) = true.
Proof.
  assert (H : forallb (fun r => str_eqb (noun_of (ra_name r)) (lit "defstyle") || forallb (fun x => offers (fst x) (snd x) (noun_of (ra_name r)))
    [(VAdd, false); (VRemove, false); (VMut, false); (VGet, false); (VGet, true)]) raccessors = true) by (vm_compute; reflexivity).
  intros r R D v all I. rewrite forallb_forall in H. specialize (H _ R). apply orb_prop in H. destruct H as [H|H]; [apply str_eqb_eq in H; contradiction|].
  rewrite forallb_forall in H. exact (H _ I).
Qed.
Example C67_offered_ex : offers VRemove false (lit "validation") = true /\ offers VRemove false (lit "defstyle") = false.
Proof. vm_compute. auto. Qed.

(** ** Constructors *)

(** The first of two corners has no prefix in the names of functions. *)
Definition param_noun (n : str) : str := noun_of (match after (lit "from_") n with Some s => s | None => n end).
Definition source_of (m : maker) (p : str) : option source := option_map snd (find (fun f => str_eqb (fst f) p) (mk_fields m)).
Definition new_ok (m : maker) (r : accessor) : bool :=
  if (if str_eqb (mk_type m) (ac_type r) then is_reader (ac_name r) else false) then
    match reader_path (ac_act r) with
    | None => false
    | Some p => match source_of m p, find (fun n => str_eqb (param_noun n) (noun_of (ac_name r))) (mk_params m) with
                | Some (SParam n), Some n' => str_eqb n n' && forallb (fun x => negb (str_eqb (param_noun x) (noun_of (ac_name r))) || str_eqb x n) (mk_params m)
                | Some (SConst _), None => true
                | Some (SParam n), None => str_eqb (mk_type m) (lit "FormatPart") && str_eqb n (lit "ftype") && str_eqb (noun_of (ac_name r)) (lit "parttype")
                | _, _ => false
                end
    end
  else true.
Lemma new_checked : forallb (fun m => forallb (new_ok m) accessors) makers = true.
Proof. vm_compute. reflexivity. Qed.
(** A new object returns each argument under the name of the parameter; the parameter [ftype] of [FormatPart::new] is the type of the part. What has no
    parameter does not depend on the arguments. *)
Theorem C67_new : forall A m r (args : str -> list A) meaning, In m makers -> In r accessors -> mk_type m = ac_type r -> is_reader (ac_name r) = true ->
  (forall n, In n (mk_params m) -> param_noun n = noun_of (ac_name r) -> returns (ac_act r) (make args meaning m) = args n)
  /\ (~ In (noun_of (ac_name r)) (map param_noun (mk_params m)) ->
       (exists t, forall args', returns (ac_act r) (make args' meaning m) = meaning t)
       \/ mk_type m = lit "FormatPart" /\ noun_of (ac_name r) = lit "parttype" /\ returns (ac_act r) (make args meaning m) = args (lit "ftype")).
Proof.
  intros A m r args meaning M R T Q. generalize new_checked. intros H. rewrite forallb_forall in H. specialize (H _ M). rewrite forallb_forall in H. specialize (H _ R).
  unfold new_ok in H. rewrite T, str_eqb_refl, Q in H.
  assert (X : exists p, reader_path (ac_act r) = Some p /\ forall x : object A, returns (ac_act r) x = x p).
  { destruct (ac_act r); cbn [reader_path] in *; try discriminate; eexists; split; reflexivity. }
  destruct X as (p & E & G). rewrite E in H. rewrite !G.
  assert (S : forall args', make args' meaning m p = match source_of m p with Some (SParam n) => args' n | Some (SConst t) => meaning t | None => [] end).
  { intros args'. unfold make, source_of. destruct (find _ (mk_fields m)) as [[? []]|]; reflexivity. }
  split.
  - intros n I N. rewrite S. destruct (find (fun n => str_eqb (param_noun n) (noun_of (ac_name r))) (mk_params m)) as [n'|] eqn:F.
    + destruct (source_of m p) as [[n0|t]|]; try discriminate H. apply andb_prop in H. destruct H as [_ H]. rewrite forallb_forall in H. specialize (H _ I).
      rewrite N, str_eqb_refl in H. cbn [negb orb] in H. apply str_eqb_eq in H. now subst.
    + assert (Y := find_none _ _ F _ I). cbn beta in Y. rewrite N, str_eqb_refl in Y. discriminate Y.
  - intros N. destruct (find (fun n => str_eqb (param_noun n) (noun_of (ac_name r))) (mk_params m)) as [n'|] eqn:F.
    + apply find_some in F. destruct F as [F1 F2]. apply str_eqb_eq in F2. elim N. rewrite <- F2. now apply in_map.
    + destruct (source_of m p) as [[n0|t]|] eqn:Y; try discriminate H.
      * right. apply andb_prop in H. destruct H as [H H3]. apply andb_prop in H. destruct H as [H1 H2]. apply str_eqb_eq in H1, H2, H3. rewrite T, <- H1, S. subst n0. auto.
      * left. exists t. intros args'. rewrite G, S. reflexivity.
Qed.
Example C67_new_ex : exists m, In m makers /\ mk_type m = lit "CellRange" /\ mk_name m = lit "remote"
  /\ make (fun n => [n]) (fun t => [t]) m (lit "from_row.row") = [lit "row"] /\ make (fun n => [n]) (fun t => [t]) m (lit "to_row.row") = [lit "to_row"]
  /\ make (fun n => [n]) (fun t => [t]) m (lit "from_table") = [lit "table"] /\ make (fun n => [n]) (fun t => [t]) m (lit "to_table") = [lit "None"].
Proof.
  destruct (find (fun m => str_eqb (mk_type m) (lit "CellRange") && str_eqb (mk_name m) (lit "remote")) makers) as [m|] eqn:E; [|vm_compute in E; discriminate E].
  exists m. assert (I := find_some _ _ E). destruct I as [I J]. apply andb_prop in J. destruct J as [J1 J2]. apply str_eqb_eq in J1, J2. split; [exact I|]. split; [exact J1|]. split; [exact J2|].
  vm_compute in E. injection E as <-. vm_compute. auto.
Qed.
(** Each parameter is returned by some function. *)
Theorem C67_used : forall m n, In m makers -> In n (mk_params m) ->
  mk_type m = lit "FormatPart" /\ n = lit "ftype" \/ exists r, In r accessors /\ ac_type r = mk_type m /\ is_reader (ac_name r) = true /\ noun_of (ac_name r) = param_noun n.
Proof.
  assert (H : forallb (fun m => forallb (fun n => str_eqb (mk_type m) (lit "FormatPart") && str_eqb n (lit "ftype")
      || existsb (fun r => if str_eqb (ac_type r) (mk_type m) then is_reader (ac_name r) && str_eqb (noun_of (ac_name r)) (param_noun n) else false) accessors) (mk_params m)) makers = true) by (vm_compute; reflexivity).
  intros m n M N. rewrite forallb_forall in H. specialize (H _ M). rewrite forallb_forall in H. specialize (H _ N). apply orb_prop in H. destruct H as [H|H].
  - left. apply andb_prop in H. destruct H as [H1 H2]. apply str_eqb_eq in H1, H2. auto.
  - right. apply existsb_exists in H. destruct H as (r & R & E). destruct (str_eqb (ac_type r) (mk_type m)) eqn:E1; [|discriminate E]. apply andb_prop in E. destruct E as [E2 E3].
    apply str_eqb_eq in E1, E3. exists r. auto.
Qed.
Example C67_used_ex : exists m, In m makers /\ mk_params m = [lit "condition"; lit "applied_style"; lit "base_cell"].
Proof.
  destruct (find (fun m => str_eqb (mk_type m) (lit "StyleMap") && str_eqb (mk_name m) (lit "new")) makers) as [m|] eqn:E; [|vm_compute in E; discriminate E].
  exists m. split; [apply (find_some _ _ E)|]. vm_compute in E. injection E as <-. reflexivity.
Qed.

(** What is made by [new] is displayed: sheets, headers and footers, and the help and error messages of validations. *)
Theorem C67_displayed : forall m, In m makers -> mk_name m = lit "new" ->
  forall t, source_of m (lit "display") = Some t -> t = SConst (lit "true").
Proof.
  assert (H : forallb (fun m => negb (str_eqb (mk_name m) (lit "new")) || match source_of m (lit "display") with Some (SConst t) => str_eqb t (lit "true") | Some _ => false | None => true end) makers = true)
    by (vm_compute; reflexivity).
  intros m M N t S. rewrite forallb_forall in H. specialize (H _ M). rewrite N, str_eqb_refl in H. cbn [negb orb] in H. rewrite S in H. destruct t; [discriminate H|].
  apply str_eqb_eq in H. now subst.
Qed.
Example C67_displayed_ex : exists m, In m makers /\ mk_name m = lit "new" /\ mk_type m = lit "HeaderFooter" /\ source_of m (lit "display") = Some (SConst (lit "true")).
Proof.
  destruct (find (fun m => str_eqb (mk_type m) (lit "HeaderFooter")) makers) as [m|] eqn:E; [|vm_compute in E; discriminate E].
  exists m. split; [apply (find_some _ _ E)|]. vm_compute in E. injection E as <-. vm_compute. auto.
Qed.

(** The headers and footers of a new master page are not made by [new]: they are the default ones, and a paragraph in the center of the header is written
    in a header that is not displayed, and read so. *)
Definition filled : mbody := put_hf HHeader (HF (hf_display (mp_hf mbody0 HHeader)) [] [XTag (lit "text:p") [] [XText (lit "center")]] [] []) mbody0.
Theorem C67_header_refuted :
  (exists m, In m makers /\ mk_type m = lit "MasterPage" /\ mk_name m = lit "new" /\ source_of m (lit "header") = Some (SConst (lit "Default::default()")))
  /\ In (CAttr (lit "style:display") (lit "false")) (hf_calls HHeader (mp_hf filled HHeader))
  /\ exists h, header_of (pack (one_header (mp_header filled))) (lit "M") = Some h /\ hf_display h = false /\ hf_center h = [XTag (lit "text:p") [] [XText (lit "center")]].
Proof.
  split; [|split].
  - destruct (find (fun m => str_eqb (mk_type m) (lit "MasterPage") && str_eqb (mk_name m) (lit "new")) makers) as [m|] eqn:E; [|vm_compute in E; discriminate E].
    exists m. split; [apply (find_some _ _ E)|]. vm_compute in E. injection E as <-. vm_compute. auto.
  - vm_compute. auto.
  - exists (HF false [] [XTag (lit "text:p") [] [XText (lit "center")]] [] []). split; [vm_compute; reflexivity|]. split; reflexivity.
Qed.

Print Assumptions C67_set.
Print Assumptions C67_lend.
Print Assumptions C67_panics.
Print Assumptions C67_readable.
Print Assumptions C67_registry.
Print Assumptions C67_offered.
Print Assumptions C67_new.
Print Assumptions C67_used.
Print Assumptions C67_displayed.
Print Assumptions C67_header_refuted.
