(** Writing and reading the settings tree. *)
From Verif Require Import Base Lib BookModel BookProps CellModel NumModel NumSpec NumProofs NumProps XmlModel XmlSpec XmlProofs CellIoModel CellIoSpec CellIoProofs
  CondProps ConfigModel ConfigSpec ConfigProofs.

(** ** Text that comes in pieces *)

Lemma crun_app a b s : crun (a ++ b) s = let* s' := crun a s in crun b s'.
Proof. revert s. induction a as [|e a IH]; intros s; [reflexivity|]. cbn [app crun]. destruct (cstep e s); cbn [bind]; auto. Qed.
Lemma step_text_nil s : cstep (EText []) s = Ok s.
Proof. destruct s as [c|c [[n t x]|] st]; cbn; rewrite ?app_nil_r; reflexivity. Qed.
Lemma step_text_app a b s : (let* s' := cstep (EText a) s in cstep (EText b) s') = cstep (EText (a ++ b)) s.
Proof. destruct s as [c|c [[n t x]|] st]; cbn; rewrite ?app_assoc; reflexivity. Qed.
Lemma crun_emit acc s : crun (emit_text acc) s = cstep (EText acc) s.
Proof. destruct acc as [|x acc]; cbn [emit_text crun]; [now rewrite step_text_nil|]. now destruct (cstep _ s). Qed.
Lemma crun_coalesce evs : forall acc s, crun (coalesce_from acc evs) s = let* s' := cstep (EText acc) s in crun evs s'.
Proof.
  induction evs as [|e evs IH]; intros acc s.
  - cbn [coalesce_from]. rewrite crun_emit. now destruct (cstep (EText acc) s).
  - assert (N : not_text e -> crun (coalesce_from acc (e :: evs)) s = let* s' := cstep (EText acc) s in crun (e :: evs) s').
    { intros Ne. rewrite coalesce_cons by assumption. rewrite crun_app, crun_emit. destruct (cstep (EText acc) s) as [s'| |]; try reflexivity.
      cbn [bind crun]. destruct (cstep e s') as [s2| |]; try reflexivity. cbn [bind]. rewrite IH. now rewrite step_text_nil. }
    destruct e; try (apply N; exact I). cbn [coalesce_from]. rewrite IH, <- step_text_app. destruct (cstep (EText acc) s); reflexivity.
Qed.
Lemma crun_events lb cs s : crun (events_of lb cs) s = crun (asked esc_split lb None cs) s.
Proof. unfold events_of, coalesce. rewrite crun_coalesce, step_text_nil. reflexivity. Qed.
(** An item collects the text of references. *)
Lemma crun_esc t : forall c n ty x st evs,
  crun (esc_split t ++ evs) (CInside c (Some (CPending n ty x)) st) = crun evs (CInside c (Some (CPending n ty (x ++ t))) st).
Proof.
  induction t as [|a t IH]; intros; cbn [esc_split map app]; [now rewrite app_nil_r|]. fold (esc_split t).
  assert (E : x ++ a :: t = (x ++ [a]) ++ t) by now rewrite <- app_assoc. rewrite E.
  destruct (entity_of a) as [e|] eqn:En; cbn [crun cstep pe_name pe_type pe_text].
  - rewrite (entity_named a e En). cbn [bind]. apply IH.
  - cbn [bind]. apply IH.
Qed.

(** ** Values *)

Lemma value_type_known v : existsb (str_eqb (value_type v)) value_types = true.
Proof. destruct v; vm_compute; reflexivity. Qed.
Lemma start_value n v : start_item [(a_name, n); (a_type, value_type v)] = Ok (CPending n (value_type v) []).
Proof.
  unfold start_item. cbn [get_attr]. replace (str_eqb a_type a_type) with true by reflexivity. replace (str_eqb a_type a_name) with false by reflexivity.
  replace (str_eqb a_name a_name) with true by reflexivity. replace (str_eqb a_name a_type) with false by reflexivity.
  cbn [forallb fst snd]. replace (str_eqb a_type a_type) with true by reflexivity. replace (str_eqb a_name a_type) with false by reflexivity.
  rewrite value_type_known. reflexivity.
Qed.
Lemma parse_value_ok v : value_ok v -> parse_value (value_type v) (value_text v) = Ok v.
Proof.
  destruct C28_roundtrip as (_ & R16 & R32 & R64).
  destruct v as [s|b|d|t|z|z|z|s]; intros H; unfold parse_value; cbn [value_type value_text];
    repeat match goal with |- context [str_eqb (lit ?a) (lit ?b)] => let r := eval vm_compute in (str_eqb (lit a) (lit b)) in replace (str_eqb (lit a) (lit b)) with r by reflexivity end; cbv iota.
  - reflexivity.
  - destruct b; reflexivity.
  - cbn in H. rewrite C27_survives by tauto. reflexivity.
  - unfold parse_f64. rewrite number_float by exact H. reflexivity.
  - rewrite R32 by exact H. reflexivity.
  - rewrite R64 by exact H. reflexivity.
  - rewrite R16 by exact H. reflexivity.
  - reflexivity.
Qed.
Lemma blank_empty v : value_empty v = blank (Leaf v).
Proof. destruct v as [[|]| | | | | | |[|]]; reflexivity. Qed.
Lemma text_raw v : value_ok v -> match v with VString _ => True | _ => raw_text_ok (value_text v) end.
Proof.
  destruct v as [s|b|d|t|z|z|z|s]; cbn [value_ok value_text]; intros H; try exact I; try exact H.
  - apply plain_text, show_bool_plain.
  - apply plain_text, datetime_plain.
  - now apply plain_text, number_plain.
  - apply plain_text, show_Z_plain.
  - apply plain_text, show_Z_plain.
  - apply plain_text, show_Z_plain.
Qed.

(** ** Reading what was written *)

Definition branch_of (t : ctype) : bool := match t with Some _ => true | None => false end.
(** The frame takes an item of that type under that name. *)
Definition takes (f : cframe) (k : ckind) : Prop := child_kind (fr_kind f) (kind_tag k) = Some (Some k).
Definition takes_values (f : cframe) : Prop := child_kind (fr_kind f) t_item = Some None.

Lemma run_value lb n v c f st rest : value_ok v -> takes_values f ->
  crun (asked esc_split lb None (write_value n v ++ rest)) (CInside c None (f :: st))
  = if blank (Leaf v) then crun (asked esc_split lb None rest) (CInside c None (f :: st))
    else let* f' := frame_put (Some n) (CVal v) f in crun (asked esc_split lb None rest) (CInside c None (f' :: st)).
Proof.
  intros V T. unfold write_value. rewrite blank_empty. destruct (blank (Leaf v)) eqn:B; cbn [negb app asked finish with_attr].
  - destruct v as [[|x s]| | | | | | |[|x s]]; try discriminate; cbn [value_type value_text asked finish app esc_split map crun cstep bind]; reflexivity.
  - assert (E : forall evs, crun (EStart t_item [(a_name, n); (a_type, value_type v)]
        :: (match v with VString s => esc_split s | _ => [EText (value_text v)] end) ++ EEnd t_item :: EText (nl lb) :: evs) (CInside c None (f :: st))
      = let* f' := frame_put (Some n) (CVal v) f in crun evs (CInside c None (f' :: st))).
    { intros evs. cbn [crun cstep cstart]. unfold takes_values in T. rewrite T, start_value. cbn [bind].
      assert (X : crun ((match v with VString s => esc_split s | _ => [EText (value_text v)] end) ++ EEnd t_item :: EText (nl lb) :: evs) (CInside c (Some (CPending n (value_type v) [])) (f :: st))
        = crun (EEnd t_item :: EText (nl lb) :: evs) (CInside c (Some (CPending n (value_type v) (value_text v))) (f :: st))).
      { destruct v; try reflexivity. rewrite crun_esc. reflexivity. }
      rewrite X. cbn [crun cstep pe_name pe_type pe_text]. rewrite str_eqb_refl, parse_value_ok by assumption. cbn [bind].
      destruct (frame_put (Some n) (CVal v) f) as [f'| |]; reflexivity. }
    rewrite <- E. destruct v; cbn [asked finish app]; reflexivity.
Qed.

Lemma put_frame f key x nm : nm = (match fr_kind f with Some KVec => None | _ => Some key end) ->
  (fr_kind f = Some KVec -> key = show_N (fr_index f)) ->
  map_ok (fr_map f) -> ~ In key (keys (cm_vals (fr_map f))) ->
  exists f', frame_put nm x f = Ok f' /\ fr_kind f' = fr_kind f /\ fr_name f' = fr_name f
    /\ map_ok (fr_map f') /\ cm_vals (fr_map f') = cm_vals (fr_map f) ++ [(key, x)]
    /\ (fr_kind f = Some KVec -> fr_index f' = fr_index f + 1).
Proof.
  intros -> Hv M N. destruct (insert_ok key x (fr_map f) M) as (m' & I & M' & V). apply assoc_in in N. rewrite put_fresh in V by assumption.
  unfold frame_put. destruct (fr_kind f) as [[]|] eqn:K; try (rewrite I; cbn [bind]; eexists; split; [reflexivity|]; cbn [fr_kind fr_name fr_map fr_index]; rewrite ?K; repeat split; auto; try discriminate; apply M').
  rewrite <- Hv by reflexivity. rewrite I. cbn [bind]; eexists; split; [reflexivity|]; cbn [fr_kind fr_name fr_map fr_index]; rewrite ?K; repeat split; auto; apply M'.
Qed.

(** ** Indexed maps *)

Lemma pos_seq L : forall a i, pos_of (show_N (N.of_nat (a + i))) (map show_N (map N.of_nat (seq a L))) = if (i <? L)%nat then Some i else None.
Proof.
  induction L as [|L IH]; intros a i; cbn [seq map pos_of]; [now destruct i|]. destruct i as [|i].
  - now rewrite Nat.add_0_r, str_eqb_refl.
  - destruct (str_eqb (show_N (N.of_nat a)) (show_N (N.of_nat (a + S i)))) eqn:E; [apply str_eqb_eq, show_N_inj in E; lia|].
    replace (a + S i)%nat with (S a + i)%nat by lia. rewrite IH. destruct (Nat.ltb_spec i L), (Nat.ltb_spec (S i) (S L)); try lia; reflexivity.
Qed.
Lemma vec_all ix L parts : (forall i, am_get (show_N (N.of_nat i)) ix = if (i <? L)%nat then Some i else None) -> length parts = L ->
  forall n i, (n + i)%nat = L -> vec_loop (S n) (N.of_nat i) ix parts = concat_res (skipn i parts).
Proof.
  intros H HL. induction n as [|n IH]; intros i Hi.
  - cbn [vec_loop]. rewrite H. replace (i <? L)%nat with false by (symmetry; apply Nat.ltb_ge; lia). rewrite skipn_all2 by lia. reflexivity.
  - remember (S n) as n1. cbn [vec_loop]. rewrite H. replace (i <? L)%nat with true by (symmetry; apply Nat.ltb_lt; lia).
    destruct (nth_error parts i) as [p|] eqn:E; [|apply nth_error_None in E; lia].
    assert (X : skipn i parts = p :: skipn (S i) parts).
    { clear - E. revert parts E. induction i as [|i IH]; intros [|q r] E; try discriminate; cbn in *; [congruence|]. now rewrite (IH r E). }
    rewrite X. cbn [concat_res]. replace (N.of_nat i + 1) with (N.of_nat (S i)) by lia. subst n1. rewrite (IH (S i)) by lia. reflexivity.
Qed.

(** ** Nested items *)

Definition fine_calls (cs : list call) : Prop :=
  (forall q r, (forall q, sensible q r) -> sensible q (cs ++ r)) /\ (forall st r, calls_nested st r -> calls_nested st (cs ++ r))
  /\ (forall r, flushes r -> flushes (cs ++ r)).
Definition takes_item (ko : option ckind) (x : citem) : Prop :=
  match x with CVal _ => child_kind ko t_item = Some None | CBranch k _ => child_kind ko (kind_tag k) = Some (Some k) end.
Definition named (nm : option str) (x : citem) : Prop := match x with CBranch KEntry _ => True | _ => nm <> None end.
Definition reads_back (x : citem) : Prop :=
  forall nm, named nm x -> sound x -> tree_ok (plain x) ->
  exists cs, write_item nm x = Ok cs /\ fine_calls cs /\
    forall lb c f st rest, flushes rest -> takes_item (fr_kind f) x ->
    if blank (plain x) then crun (asked esc_split lb None (cs ++ rest)) (CInside c None (f :: st)) = crun (asked esc_split lb None rest) (CInside c None (f :: st))
    else exists x', sound x' /\ plain x' = strip (plain x) /\
      crun (asked esc_split lb None (cs ++ rest)) (CInside c None (f :: st))
      = let* f' := frame_put nm x' f in crun (asked esc_split lb None rest) (CInside c None (f' :: st)).

Definition kept (l : list (str * tree)) : list (str * tree) := flat_map (fun kv => if blank (snd kv) then [] else [(fst kv, strip (snd kv))]) l.
Definition plains (l : list (str * citem)) : list (str * tree) := map (fun kv => (fst kv, plain (snd kv))) l.
Definition nm_in (ko : option ckind) (key : str) : option str := match ko with Some KVec => None | _ => Some key end.
Definition frame_ok (f : cframe) : Prop := map_ok (fr_map f) /\ Forall (fun kv => sound (snd kv)) (cm_vals (fr_map f)).

Lemma fine_nil : fine_calls [].
Proof. repeat split; auto. Qed.
Lemma fine_app a b : fine_calls a -> fine_calls b -> fine_calls (a ++ b).
Proof.
  intros (A1 & A2 & A3) (B1 & B2 & B3). repeat split; intros; rewrite <- app_assoc; auto.
Qed.
Lemma takes_vec x : takes_item (Some KVec) x -> blank (plain x) = false.
Proof. destruct x as [v|k [ix vals]]; [discriminate|reflexivity]. Qed.

Lemma body_reads ko vals : Forall (fun kv => reads_back (snd kv)) vals ->
  Forall (fun kv => named (nm_in ko (fst kv)) (snd kv) /\ takes_item ko (snd kv) /\ sound (snd kv) /\ tree_ok (plain (snd kv))) vals ->
  exists body, concat_res (map (fun kv => write_item (nm_in ko (fst kv)) (snd kv)) vals) = Ok body /\ fine_calls body /\
    forall lb c st rest f, flushes rest -> fr_kind f = ko -> frame_ok f -> NoDup (keys (cm_vals (fr_map f)) ++ keys vals) ->
    (ko = Some KVec -> keys vals = map (fun i => show_N (fr_index f + N.of_nat i)) (seq 0 (length vals))) ->
    exists f', fr_kind f' = ko /\ fr_name f' = fr_name f /\ frame_ok f'
      /\ plains (cm_vals (fr_map f')) = plains (cm_vals (fr_map f)) ++ kept (plains vals)
      /\ crun (asked esc_split lb None (body ++ rest)) (CInside c None (f :: st)) = crun (asked esc_split lb None rest) (CInside c None (f' :: st)).
Proof.
  induction 1 as [|[key x] vals R _ IH]; intros H.
  - exists []. split; [reflexivity|]. split; [apply fine_nil|]. intros lb c st rest f _ K F _ _. exists f.
    split; [exact K|]. split; [reflexivity|]. split; [exact F|]. split; [cbn; now rewrite app_nil_r|reflexivity].
  - inversion H as [|? ? (N & T & S & O) H' Eq]; subst. clear H. cbn [fst snd] in *.
    destruct (R (nm_in ko key) N S O) as (cs & W & Fc & Rd). destruct (IH H') as (body & Wb & Fb & Rb). clear IH R.
    exists (cs ++ body). cbn [map fst snd concat_res]. rewrite W, Wb. cbn [bind]. split; [reflexivity|]. split; [now apply fine_app|].
    intros lb c st rest f Fl K F D V. specialize (Rd lb c f st (body ++ rest)). destruct Fb as (_ & _ & Fb3). specialize (Rd (Fb3 _ Fl)).
    rewrite K in Rd. specialize (Rd T). rewrite <- app_assoc. cbn [plains map fst snd]. fold (plains vals). cbn [kept flat_map fst snd]. fold (kept (plains vals)).
    destruct (blank (plain x)) eqn:B.
    + rewrite Rd. cbn [app]. apply Rb; auto.
      * cbn [keys map fst] in D. fold (keys vals) in D. now apply NoDup_remove_1 in D.
      * intros E. rewrite E in T. apply takes_vec in T. congruence.
    + destruct Rd as (x' & S' & P' & Rd).
      destruct (put_frame f key x' (nm_in ko key)) as (f1 & P1 & K1 & N1 & M1 & V1 & I1).
      * rewrite K. unfold nm_in. reflexivity.
      * rewrite K. intros E. specialize (V E). cbn [keys map fst length seq] in V. injection V as V _. rewrite V. f_equal. lia.
      * apply F.
      * cbn [keys map fst] in D. apply NoDup_remove_2 in D. rewrite in_app_iff in D. tauto.
      * rewrite Rd, P1. cbn [bind]. destruct (Rb lb c st rest f1 Fl) as (f2 & K2 & N2 & F2 & V2 & R2).
        -- congruence.
        -- split; [exact M1|]. rewrite V1. apply Forall_app. split; [apply F|]. constructor; [exact S'|constructor].
        -- rewrite V1. unfold keys in *. rewrite map_app, <- app_assoc. exact D.
        -- intros E. rewrite K in I1. rewrite (I1 E). specialize (V E). cbn [keys map fst length seq] in V. injection V as _ V. unfold keys. rewrite V.
           rewrite <- seq_shift, map_map. apply map_ext. intros i. f_equal. lia.
        -- exists f2. split; [exact K2|]. split; [congruence|]. split; [exact F2|]. split; [|exact R2].
           rewrite V2, V1. unfold plains at 1. rewrite map_app. cbn [map fst snd]. rewrite P'. rewrite <- app_assoc. reflexivity.
Qed.

Lemma write_branch nm k ix vals : write_item nm (CBranch k (CMap ix vals)) =
  (let part := fun kv : str * citem => if may_hold k (snd kv)
     then write_item (match k, snd kv with KVec, CVal _ => nm | KVec, _ => None | _, _ => Some (fst kv) end) (snd kv) else Panic in
   let* body := match k with KVec => vec_loop (S (length vals)) 0 ix (map part vals) | _ => concat_res (map part vals) end in
   Ok ([CElem (kind_tag k)] ++ (match nm with Some n => [CAttrEsc a_name n] | None => [] end) ++ body ++ [CEnd (kind_tag k)])).
Proof. reflexivity. Qed.
Lemma kind_name k : name_ok (kind_tag k).
Proof. destruct k; name_lit. Qed.
Lemma child_takes k x : child_ok k (plain x) -> takes_item (Some k) x /\ may_hold k x = true.
Proof. destruct k, x as [v|[] m]; rewrite ?plain_branch; cbn; intros H; try contradiction; split; reflexivity. Qed.
Lemma value_type_raw v : raw_value_ok (value_type v).
Proof. destruct v; cbn [value_type]; apply plain_value; plain_lit. Qed.
Lemma fine_value n v : value_ok v -> fine_calls (write_value n v).
Proof.
  intros V. unfold write_value. repeat split.
  - intros q r H. cbn [app]. apply sn_elem_if; [name_lit|]. apply sn_attr_esc; [name_lit|]. apply sn_attr; [name_lit|apply value_type_raw|].
    pose proof (text_raw v V) as T. destruct v; (apply sn_text_esc || (apply sn_text; [exact T|])); apply sn_end_if; try name_lit; apply H.
  - intros st r H. destruct (value_empty v) eqn:E; destruct v; cbn [negb app calls_nested]; auto.
Qed.
Lemma all_read_back x : reads_back x.
Proof.
  induction x as [v|k ix vals IH] using citem_rect'; intros nm Nm S O.
  - destruct nm as [n|]; [|cbn in Nm; congruence]. exists (write_value n v). split; [reflexivity|]. split; [now apply fine_value|].
    intros lb c f st rest _ T. pose proof (run_value lb n v c f st rest O T) as R. cbn [plain]. destruct (blank (Leaf v)); [exact R|].
    exists (CVal v). split; [exact I|]. split; [reflexivity|exact R].
  - apply sound_branch in S as (Ix & S). cbn [plain] in O. fold (plains vals) in O. apply tree_ok_node in O as (Kv & Ch).
    assert (Kv' : k = KVec -> map fst vals = map show_N (map N.of_nat (seq 0 (length vals)))).
    { intros E. specialize (Kv E). unfold plains in Kv. rewrite map_map, map_length in Kv. exact Kv. } clear Kv. rename Kv' into Kv.
    assert (C : Forall (fun kv => named (nm_in (Some k) (fst kv)) (snd kv) /\ takes_item (Some k) (snd kv) /\ sound (snd kv) /\ tree_ok (plain (snd kv)) /\ may_hold k (snd kv) = true) vals).
    { unfold plains in Ch. rewrite Forall_map in Ch. rewrite Forall_forall in *. intros kv I. specialize (Ch kv I). cbn [snd] in Ch. destruct Ch as (Ch & Tr).
      destruct (child_takes k (snd kv) Ch) as (T & M). split; [|split; [exact T|split; [now apply S|split; assumption]]].
      destruct (snd kv) as [v|[] m]; destruct k; cbn; try discriminate; auto. all: rewrite plain_branch in Ch; contradiction. }
    assert (Pm : map (fun kv : str * citem => if may_hold k (snd kv)
       then write_item (match k, snd kv with KVec, CVal _ => nm | KVec, _ => None | _, _ => Some (fst kv) end) (snd kv) else Panic) vals
      = map (fun kv => write_item (nm_in (Some k) (fst kv)) (snd kv)) vals).
    { apply map_ext_in. intros kv I. rewrite Forall_forall in C. destruct (C kv I) as (C1 & C2 & _ & _ & C3). rewrite C3.
      destruct (snd kv) as [v|k' m]; destruct k; try reflexivity. discriminate C2. }
    destruct (body_reads (Some k) vals IH) as (body & W & Fb & Rb).
    { eapply Forall_impl; [|exact C]. cbn. tauto. }
    exists ([CElem (kind_tag k)] ++ (match nm with Some n => [CAttrEsc a_name n] | None => [] end) ++ body ++ [CEnd (kind_tag k)]).
    split.
    { rewrite write_branch. cbv zeta. rewrite Pm. assert (V : k = KVec -> vec_loop (Datatypes.S (length vals)) 0 ix (map (fun kv => write_item (nm_in (Some k) (fst kv)) (snd kv)) vals)
        = concat_res (map (fun kv => write_item (nm_in (Some k) (fst kv)) (snd kv)) vals)).
      { intros E. specialize (Kv E). apply (vec_all ix (length vals)) with (i := O); [|apply map_length|lia]. intros i. destruct Ix as (_ & Ix). rewrite Ix, Kv. apply (pos_seq _ 0). }
      destruct k; try (rewrite W; reflexivity). rewrite V by reflexivity. rewrite W. reflexivity. }
    split.
    { destruct Fb as (B1 & B2 & B3). repeat split.
      - intros q r H. rewrite <- !app_assoc. cbn [app]. apply sn_elem; [apply kind_name|].
        assert (Hb : sensible true (body ++ CEnd (kind_tag k) :: r)). { apply B1. intros. apply sn_end; [apply kind_name|apply H]. }
        destruct nm; cbn [app]; [apply sn_attr_esc; [name_lit|]|]; exact Hb.
      - intros st r H. rewrite <- !app_assoc. cbn [app calls_nested]. assert (Hb : calls_nested (kind_tag k :: st) (body ++ CEnd (kind_tag k) :: r)). { apply B2. cbn. auto. }
        destruct nm; exact Hb. }
    intros lb c f st rest Fl T. cbn [plain blank].
    pose proof (Rb lb c (f :: st) (CEnd (kind_tag k) :: rest) (CFrame (Some k) nm cm_new 0) I eq_refl) as Rb'.
    destruct Rb' as (f1 & K1 & N1 & F1 & V1 & R1).
    { split; [apply new_ok|constructor]. }
    { cbn. exact (proj1 Ix). }
    { intros E. injection E as E. specialize (Kv E). unfold keys. rewrite Kv, map_map. apply map_ext. intros i. reflexivity. }
    exists (frame_item f1). cbn [cm_new cm_vals fr_map fr_name plains map app] in V1, N1. split; [|split].
    { unfold frame_item. apply sound_map. exact F1. }
    { unfold frame_item. rewrite plain_branch, K1. fold (plains (cm_vals (fr_map f1))). rewrite V1. reflexivity. }
    assert (St : forall evs, crun (EStart (kind_tag k) (match nm with Some n => [(a_name, n)] | None => [] end) :: evs) (CInside c None (f :: st))
      = crun evs (CInside c None (CFrame (Some k) nm cm_new 0 :: f :: st))).
    { intros evs. cbn [crun cstep cstart]. cbn [takes_item] in T. rewrite T.
      assert (G : get_attr a_name (match nm with Some n => [(a_name, n)] | None => [] end) = nm) by (destruct nm; reflexivity). rewrite G.
      destruct k; destruct nm; cbn in Nm; try congruence; reflexivity. }
    assert (A : asked esc_split lb None (([CElem (kind_tag k)] ++ (match nm with Some n => [CAttrEsc a_name n] | None => [] end) ++ body ++ [CEnd (kind_tag k)]) ++ rest)
      = EStart (kind_tag k) (match nm with Some n => [(a_name, n)] | None => [] end) :: asked esc_split lb None (body ++ CEnd (kind_tag k) :: rest)).
    { rewrite <- !app_assoc. cbn [app asked finish]. destruct nm; cbn [app asked with_attr]; rewrite asked_flush by (apply Fb; exact I); reflexivity. }
    rewrite A, St, R1. cbn [asked finish app crun cstep cend]. rewrite K1. cbn [end_tag]. rewrite str_eqb_refl, N1.
    destruct (frame_put nm (frame_item f1) f); reflexivity.
Qed.

(** ** The whole file *)

Lemma outside_attrs lb ns rest c : Forall is_attr ns -> flushes rest ->
  crun (asked esc_split lb None ([CDtd (lit "UTF-8"); CElem (lit "office:document-settings")] ++ ns ++ rest)) (COutside c)
  = crun (asked esc_split lb None rest) (COutside c).
Proof.
  intros A F. cbn [app asked finish]. rewrite asked_attr_calls by assumption. rewrite asked_flush by assumption. reflexivity.
Qed.
Lemma ns_attr (ns : list (str * str)) : Forall is_attr (map (fun kv => CAttrEsc (fst kv) (snd kv)) ns).
Proof. apply Forall_map. apply Forall_forall. intros kv _. discriminate. Qed.
Lemma settings_back ns c : Forall (fun kv => name_ok (fst kv)) ns -> sound c -> settings_ok (plain c) ->
  exists cs, write_ods_settings ns c = Ok cs /\ sensible false cs /\ calls_nested [] cs /\
  forall lb, exists c', read_settings (events_of lb cs) = Ok (Some c') /\ sound c' /\ plain c' = strip (plain c).
Proof.
  intros Hns S (l & E & T & Sets). destruct c as [v|k m]; [discriminate|]. rewrite plain_branch in E. injection E as -> E. fold (plains (cm_vals m)) in E. subst l.
  rewrite plain_branch in T. fold (plains (cm_vals m)) in T. apply tree_with_node in T as (_ & Ch). apply sound_map in S as (M & S).
  assert (C : Forall (fun kv => named (nm_in None (fst kv)) (snd kv) /\ takes_item None (snd kv) /\ sound (snd kv) /\ tree_ok (plain (snd kv))) (cm_vals m)
    /\ Forall (fun kv => exists m0, snd kv = CBranch KSet m0) (cm_vals m)).
  { unfold plains in *. rewrite Forall_map in Ch, Sets. rewrite !Forall_forall in *. cbn [snd] in *. split.
    - intros kv I. destruct (Ch kv I) as (_ & Tr). destruct (Sets kv I) as (m0 & Em). destruct (snd kv) as [v|k' m'] eqn:Ek; [discriminate|].
      rewrite plain_branch in Em. injection Em as -> _. cbn [named nm_in takes_item]. split; [discriminate|]. split; [reflexivity|]. split; [|exact Tr]. specialize (S kv I). now rewrite Ek in S.
    - intros kv I. destruct (Sets kv I) as (m0 & Em). destruct (snd kv) as [v|k' m'] eqn:Ek; [discriminate|]. rewrite plain_branch in Em. injection Em as -> _. eauto. }
  destruct C as (C & Sb). destruct (body_reads None (cm_vals m)) as (body & W & (B1 & B2 & B3) & Rb); [apply Forall_forall; intros; apply all_read_back|exact C|].
  assert (Ws : write_settings (CBranch KSet m) = Ok ([CElem t_settings] ++ body ++ [CEnd t_settings])).
  { cbn [write_settings]. assert (X : map (fun kv : str * citem => match snd kv with CBranch KSet _ => write_item (Some (fst kv)) (snd kv) | _ => Panic end) (cm_vals m)
      = map (fun kv => write_item (nm_in None (fst kv)) (snd kv)) (cm_vals m)).
    { apply map_ext_in. intros kv I. rewrite Forall_forall in Sb. destruct (Sb kv I) as (m0 & ->). reflexivity. }
    rewrite X, W. reflexivity. }
  unfold write_ods_settings. rewrite Ws. cbn [bind]. eexists. split; [reflexivity|].
  assert (Hs : sensible false ([CDtd (lit "UTF-8"); CElem (lit "office:document-settings")] ++ map (fun kv => CAttrEsc (fst kv) (snd kv)) ns ++
    ([CElem t_settings] ++ body ++ [CEnd t_settings]) ++ [CEnd (lit "office:document-settings")])).
  { cbn [app]. apply sn_dtd; [chk|]. apply sn_elem; [name_lit|]. apply sensible_attrs; [exact Hns|]. apply sn_elem; [name_lit|]. rewrite <- app_assoc. apply B1.
    intros q. cbn [app]. apply sn_end; [name_lit|]. apply sn_end; [name_lit|]. constructor. }
  split; [exact Hs|]. split.
  { cbn [app calls_nested]. apply nested_attr_calls; [apply ns_attr|]. cbn [calls_nested]. rewrite <- app_assoc. apply B2. cbn. auto. }
  intros lb. unfold read_settings. rewrite crun_events.
  destruct (Rb lb (None : option citem) [] ([CEnd t_settings] ++ [CEnd (lit "office:document-settings")]) (CFrame None None cm_new 0)) as (f1 & K1 & N1 & F1 & V1 & R1); auto; try discriminate.
  { exact I. }
  { split; [apply new_ok|constructor]. }
  { cbn. apply M. }
  exists (CBranch KSet (fr_map f1)). cbn [cm_new cm_vals fr_map plains map app] in V1.
  assert (R : crun (asked esc_split lb None ([CDtd (lit "UTF-8"); CElem (lit "office:document-settings")] ++ map (fun kv => CAttrEsc (fst kv) (snd kv)) ns ++
    ([CElem t_settings] ++ body ++ [CEnd t_settings]) ++ [CEnd (lit "office:document-settings")])) (COutside None) = Ok (COutside (Some (CBranch KSet (fr_map f1))))).
  { rewrite outside_attrs; [|apply ns_attr|exact I]. rewrite <- !app_assoc. cbn [app asked finish]. rewrite asked_flush by (apply B3; exact I).
    cbn [finish app crun cstep]. rewrite str_eqb_refl. cbn [bind]. etransitivity; [exact R1|].
    cbn [app asked finish crun cstep cend]. rewrite K1. cbn [end_tag]. rewrite str_eqb_refl. cbn [bind crun cstep]. unfold frame_item. rewrite K1. reflexivity. }
  rewrite R. cbn [bind]. split; [reflexivity|]. split; [apply sound_map; exact F1|]. rewrite !plain_branch. fold (plains (cm_vals (fr_map f1))) (plains (cm_vals m)). rewrite V1. reflexivity.
Qed.
