(** Everything read from a settings file has the shape the writer accepts. *)
From Verif Require Import Base Lib BookModel BookProps CellModel NumModel NumSpec NumProofs NumProps XmlModel XmlSpec XmlProofs
  ConfigModel ConfigSpec ConfigProofs ConfigIo.

(** ** No panics below *)

Lemma clock_np s : token_clock s <> Panic.
Proof.
  unfold token_clock. apply bind_np; [apply tag1_no_panic|]. intros [? ?]. apply bind_np; [apply datepart_no_panic|]. intros [? ?].
  apply bind_np; [apply tag1_no_panic|]. intros [? ?]. apply bind_np; [apply datepart_no_panic|]. intros [? ?].
  apply bind_np; [apply tag1_no_panic|]. intros [? ?]. apply bind_np; [apply datepart_no_panic|]. intros [? ?].
  apply bind_np; [apply opt_np, nano_np|]. intros [? ?]. discriminate.
Qed.
Lemma datetime_np s : parse_datetime s <> Panic.
Proof.
  unfold parse_datetime. apply bind_np; [apply opt_np, tag1_no_panic|]. intros [? ?]. apply bind_np; [apply datepart_no_panic|]. intros [? ?].
  apply bind_np; [apply tag1_no_panic|]. intros [? ?]. apply bind_np; [apply datepart_no_panic|]. intros [? ?].
  apply bind_np; [apply tag1_no_panic|]. intros [? ?]. apply bind_np; [apply datepart_no_panic|]. intros [? ?].
  apply bind_np; [apply opt_np, clock_np|]. intros [? ?]. apply bind_np; [apply opt_np, tag1_no_panic|]. intros [? s8].
  destruct s8; discriminate.
Qed.
Lemma num_ref_np b d : num_ref b d <> Panic.
Proof. unfold num_ref. destruct d as [|c d]; [discriminate|]. destruct (num_base b 0 (c :: d)) as [n|]; [destruct (char_ok n)|]; discriminate. Qed.
Lemma entity_np s : entity s <> Panic.
Proof.
  unfold entity. apply bind_np.
  - unfold resolve_char_ref. destruct s as [|c d]; [discriminate|]. destruct (c =? 35); [|discriminate]. destruct d as [|x h]; [discriminate|]. destruct (x =? 120); apply num_ref_np.
  - intros [c|]; [discriminate|]. destruct (named_entity s); discriminate.
Qed.

Lemma parse_value_np ty t : parse_value ty t <> Panic.
Proof.
  unfold parse_value.
  destruct (str_eqb ty (lit "base64Binary")); [discriminate|].
  destruct (str_eqb ty (lit "boolean")); [apply bind_np; [unfold parse_bool; destruct (str_eqb t _); [discriminate|]; destruct (str_eqb t _); discriminate|discriminate]|].
  destruct (str_eqb ty (lit "datetime")); [apply bind_np; [apply datetime_np|discriminate]|].
  destruct (str_eqb ty (lit "double")); [apply bind_np; [unfold parse_f64; destruct (float_text t); discriminate|discriminate]|].
  destruct (str_eqb ty (lit "int")); [apply bind_np; [apply C28_no_panic|discriminate]|].
  destruct (str_eqb ty (lit "long")); [apply bind_np; [apply C28_no_panic|discriminate]|].
  destruct (str_eqb ty (lit "short")); [apply bind_np; [apply C28_no_panic|discriminate]|]. discriminate.
Qed.

(** ** What is read has the right shape *)

Definition any (v : cvalue) : Prop := True.
Definition frame_shape (f : cframe) : Prop :=
  frame_ok f /\ (fr_kind f = Some KVec -> map fst (cm_vals (fr_map f)) = map show_N (map N.of_nat (seq 0 (length (cm_vals (fr_map f))))) /\ fr_index f = N.of_nat (length (cm_vals (fr_map f))))
  /\ Forall (fun kv => takes_item (fr_kind f) (snd kv) /\ tree_with any (plain (snd kv))) (cm_vals (fr_map f)).
(** Frames above stand for items the frames below take. *)
Fixpoint stacked (st : list cframe) : Prop :=
  match st with
  | [] => False
  | [f] => fr_kind f = None /\ frame_shape f
  | f :: ((g :: _) as r) => (exists k, fr_kind f = Some k /\ takes g k /\ (k <> KEntry -> fr_name f <> None)) /\ frame_shape f /\ stacked r
  end.
Definition conf_shape (c : option citem) : Prop := match c with Some c => sound c /\ settings_shape (plain c) | None => True end.
Definition state_shape (s : cstate) : Prop :=
  match s with
  | COutside c => conf_shape c
  | CInside c item st => conf_shape c /\ stacked st /\ match item, st with Some _, f :: _ => takes_values f | _, _ => True end
  end.
Lemma takes_child k x : takes_item (Some k) x -> child_ok k (plain x).
Proof. destruct k, x as [v|[] m]; rewrite ?plain_branch; cbn; intros H; auto; discriminate. Qed.
Lemma frame_tree f k : fr_kind f = Some k -> frame_shape f -> sound (frame_item f) /\ tree_with any (plain (frame_item f)) /\ exists m, frame_item f = CBranch k m.
Proof.
  intros K (F & V & C). unfold frame_item. rewrite K. split; [apply sound_map; exact F|]. split; [|eauto]. rewrite plain_branch. apply tree_with_node. split.
  - intros ->. rewrite map_map, map_length. exact (proj1 (V K)).
  - rewrite Forall_map. eapply Forall_impl; [|exact C]. intros kv (A & B). cbn [snd]. split; [|exact B]. rewrite K in A. now apply takes_child.
Qed.
Lemma put_shape nm x f : frame_shape f -> takes_item (fr_kind f) x -> sound x -> tree_with any (plain x) ->
  (fr_kind f = Some KVec \/ nm <> None -> exists f', frame_put nm x f = Ok f' /\ fr_kind f' = fr_kind f /\ fr_name f' = fr_name f /\ frame_shape f')
  /\ (forall f', frame_put nm x f = Ok f' -> fr_kind f' = fr_kind f /\ fr_name f' = fr_name f /\ frame_shape f').
Proof.
  intros ((M & S) & V & C) T Sx Tx.
  assert (P : forall key, (fr_kind f = Some KVec -> key = show_N (fr_index f)) -> exists m', cm_insert key x (fr_map f) = Ok m' /\ forall i, (fr_kind f = Some KVec -> i = fr_index f + 1) -> frame_shape (CFrame (fr_kind f) (fr_name f) m' i)).
  { intros key Hk. destruct (insert_ok key x (fr_map f) M) as (m' & I & M' & E). exists m'. split; [exact I|]. intros i Hi. split; [|split]; cbn [fr_map fr_kind fr_index].
    - split; [exact M'|]. cbn [fr_map]. rewrite E. now apply forall_put.
    - intros K. destruct (V K) as (V1 & V2). specialize (Hk K). specialize (Hi K).
      assert (N : assoc key (cm_vals (fr_map f)) = None).
      { apply pos_none. unfold keys. rewrite V1, Hk, V2. pose proof (pos_seq (length (cm_vals (fr_map f))) 0 (length (cm_vals (fr_map f)))) as Q. cbn [Nat.add] in Q. rewrite Q. now rewrite Nat.ltb_irrefl. }
      rewrite put_fresh in E by exact N. rewrite E, map_app, app_length. cbn [length map fst]. rewrite Nat.add_1_r, seq_S, !map_app. cbn [map Nat.add]. rewrite <- V1, Hk, V2. split; [reflexivity|]. rewrite Hi, V2. lia.
    - rewrite E. apply (forall_put (fun y => takes_item (fr_kind f) y /\ tree_with any (plain y))); auto. }
  assert (Q : forall f', frame_put nm x f = Ok f' -> fr_kind f' = fr_kind f /\ fr_name f' = fr_name f /\ frame_shape f').
  { intros f'. unfold frame_put. destruct (fr_kind f) as [kk|] eqn:K.
    - destruct kk.
      + destruct nm as [n|]; [|discriminate]. destruct (P n) as (m' & I & Sh); [discriminate|]. rewrite I. cbn [bind]. intros [= <-]. cbn. repeat split; apply Sh; discriminate.
      + destruct (P (show_N (fr_index f))) as (m' & I & Sh); [reflexivity|]. rewrite I. cbn [bind]. intros [= <-]. cbn. repeat split; apply Sh; reflexivity.
      + destruct nm as [n|]; [|discriminate]. destruct (P n) as (m' & I & Sh); [discriminate|]. rewrite I. cbn [bind]. intros [= <-]. cbn. repeat split; apply Sh; discriminate.
      + destruct nm as [n|]; [|discriminate]. destruct (P n) as (m' & I & Sh); [discriminate|]. rewrite I. cbn [bind]. intros [= <-]. cbn. repeat split; apply Sh; discriminate.
    - destruct nm as [n|]; [|discriminate]. destruct (P n) as (m' & I & Sh); [discriminate|]. rewrite I. cbn [bind]. intros [= <-]. cbn. repeat split; apply Sh; discriminate. }
  split; [|exact Q]. intros H. assert (X : exists f', frame_put nm x f = Ok f').
  { unfold frame_put. destruct (fr_kind f) as [kk|] eqn:K; [destruct kk|]; try (destruct H as [H|H]; [discriminate|]; destruct nm as [n|]; [|congruence]; destruct (P n) as (m' & -> & _); [discriminate|]; cbn; eauto).
    destruct (P (show_N (fr_index f))) as (m' & -> & _); [reflexivity|]. cbn. eauto. }
  destruct X as (f' & X). exists f'. split; [exact X|]. now apply Q.
Qed.
Lemma child_kind_self ko n k : child_kind ko n = Some (Some k) -> n = kind_tag k.
Proof.
  unfold child_kind. destruct ko as [[]|];
    repeat match goal with |- context [str_eqb ?a ?b] => let E := fresh in destruct (str_eqb a b) eqn:E; [apply str_eqb_eq in E|] end; intros [= <-]; assumption || discriminate.
Qed.
Lemma stacked_top f st : stacked (f :: st) -> frame_shape f.
Proof. destruct st; cbn; tauto. Qed.
Lemma stacked_swap f f' st : stacked (f :: st) -> fr_kind f' = fr_kind f -> fr_name f' = fr_name f -> frame_shape f' -> stacked (f' :: st).
Proof. destruct st as [|g st]; cbn [stacked]; intros H K N S; [split; [rewrite K; tauto|exact S]|]. rewrite K, N. tauto. Qed.
Lemma step_shape e s : state_shape s -> match cstep e s with Ok s' => state_shape s' | Err => True | Panic => False end.
Proof.
  assert (NS : frame_shape (CFrame None None cm_new 0)). { split; [split; [apply new_ok|constructor]|]. split; [discriminate|constructor]. }
  destruct s as [c|c [[n ty t]|] st]; intros H.
  - destruct e; cbn [cstep]; try exact H. destruct (str_eqb n t_settings); [|exact H]. cbn. auto.
  - destruct H as (Hc & Hs & Ht). destruct st as [|f st]; [contradiction|]. destruct e; cbn [cstep]; try (split; [exact Hc|split; [exact Hs|exact Ht]]).
    + rename n0 into en. destruct (str_eqb en t_item); [|split; [exact Hc|split; [exact Hs|exact Ht]]]. cbn [pe_name pe_type pe_text].
      destruct (parse_value ty t) as [v| |] eqn:Pv; cbn [bind]; [|exact I|].
      * destruct (put_shape (Some n) (CVal v) f (stacked_top f st Hs) Ht I I) as (P & Q). assert (Nn : Some n <> None) by discriminate. destruct (P (or_intror Nn)) as (f' & E & A & B & D). rewrite E. cbn [bind].
        split; [exact Hc|]. split; [now apply (stacked_swap f)|exact I].
      * apply parse_value_np in Pv. exact Pv.
    + match goal with |- context [entity ?x] => destruct (entity x) eqn:En end; cbn [bind]; [split; [exact Hc|split; [exact Hs|exact Ht]]|exact I|]. apply entity_np in En. exact En.
  - destruct H as (Hc & Hs & _). destruct st as [|f st]; [contradiction|]. pose proof (stacked_top f st Hs) as Hf.
    destruct e; cbn [cstep]; try (split; [exact Hc|split; [exact Hs|exact I]]).
    + cbn [cstart]. destruct (child_kind (fr_kind f) n) as [[k|]|] eqn:K; [| |split; [exact Hc|split; [exact Hs|exact I]]].
      * pose proof (child_kind_self _ _ _ K) as ->. assert (NF : forall nm, frame_shape (CFrame (Some k) nm cm_new 0)).
        { intros nm. split; [split; [apply new_ok|constructor]|]. split; [intros _; split; reflexivity|constructor]. }
        assert (G : forall nm, (k <> KEntry -> nm <> None) -> state_shape (CInside c None (CFrame (Some k) nm cm_new 0 :: f :: st))).
        { intros nm Hn. split; [exact Hc|]. split; [|exact I]. cbn [stacked]. split; [exists k; repeat split; assumption|]. split; [apply NF|exact Hs]. }
        destruct k; try (destruct (get_attr a_name attrs); [apply G; discriminate|exact I]). apply G. congruence.
      * destruct (start_item attrs) eqn:Es; cbn [bind]; [|exact I|]; [split; [exact Hc|split; [exact Hs|]]|].
        { assert (n = t_item). { clear - K. unfold child_kind in K. destruct (fr_kind f) as [[]|]; repeat match type of K with context [str_eqb ?x ?y] => let E := fresh in destruct (str_eqb x y) eqn:E; [apply str_eqb_eq in E|] end; congruence. }
          subst n. exact K. }
        { unfold start_item in Es. destruct (get_attr a_name attrs), (get_attr a_type attrs); try discriminate. destruct (forallb _ attrs); discriminate. }
    + cbn [cend]. destruct (str_eqb n (end_tag (fr_kind f))); [|split; [exact Hc|split; [exact Hs|exact I]]]. destruct st as [|g st].
      * cbn [stacked] in Hs. destruct Hs as (K & F & _ & C). cbn [state_shape conf_shape]. unfold frame_item. rewrite K. split; [apply sound_map; exact F|].
        exists (plains (cm_vals (fr_map f))). rewrite plain_branch. fold (plains (cm_vals (fr_map f))). split; [reflexivity|]. rewrite K in C.
        split.
        { apply tree_with_node. split; [discriminate|]. unfold plains. rewrite Forall_map. eapply Forall_impl; [|exact C]. intros kv (A & B). cbn [snd]. split; [|exact B].
          destruct (snd kv) as [v|[] m]; rewrite ?plain_branch; try exact I. discriminate A. }
        { unfold plains. rewrite Forall_map. eapply Forall_impl; [|exact C]. intros kv (A & _). cbn [snd]. destruct (snd kv) as [v|[] m]; try discriminate A. rewrite plain_branch. eauto. }
      * cbn [stacked] in Hs. destruct Hs as ((k & K & T & Nm) & F & Hg). destruct (frame_tree f k K F) as (S1 & S2 & m & S3).
        destruct (put_shape (fr_name f) (frame_item f) g (stacked_top g st Hg)) as (_ & Q); [rewrite S3; exact T|exact S1|exact S2|].
        destruct (frame_put (fr_name f) (frame_item f) g) as [g'| |] eqn:E; cbn [bind]; [|exact I|].
        -- destruct (Q g' eq_refl) as (A & B & D). split; [exact Hc|]. split; [now apply (stacked_swap g)|exact I].
        -- destruct (stacked_top g st Hg) as ((M & _) & _). unfold frame_put in E. destruct (fr_kind g) as [[]|], (fr_name f) as [n0|]; try discriminate;
             match type of E with context [cm_insert ?key ?x _] => destruct (insert_ok key x (fr_map g) M) as (m' & X & _); rewrite X in E end; discriminate.
Qed.
Lemma run_shape evs : forall s, state_shape s -> match crun evs s with Ok s' => state_shape s' | Err => True | Panic => False end.
Proof.
  induction evs as [|e evs IH]; intros s H; [exact H|]. cbn [crun]. pose proof (step_shape e s H) as S. destruct (cstep e s) as [s'| |]; cbn [bind]; [exact (IH s' S)|exact I|exact S].
Qed.

(** ** Such trees are written *)

Lemma concat_total parts : Forall (fun p => exists cs : list call, p = Ok cs) parts -> exists cs, concat_res parts = Ok cs.
Proof. induction 1 as [|p r (cs & ->) _ (ds & IH)]; [now exists []|]. cbn [concat_res bind]. rewrite IH. cbn. eauto. Qed.
Lemma item_written x : forall nm, sound x -> tree_with any (plain x) -> exists cs, write_item nm x = Ok cs.
Proof.
  induction x as [v|k ix vals IH] using citem_rect'; intros nm S O; [cbn; eauto|].
  apply sound_branch in S as (Ix & S). cbn [plain] in O. fold (plains vals) in O. apply tree_with_node in O as (Kv & Ch).
  rewrite write_branch. cbv zeta.
  match goal with |- context [map ?g vals] => set (part := g) end.
  assert (P : Forall (fun p => exists cs, p = Ok cs) (map part vals)).
  { rewrite Forall_map. unfold plains in Ch. rewrite Forall_map in Ch. rewrite Forall_forall in *. intros kv I. specialize (Ch kv I). cbn [snd] in Ch. destruct Ch as (Ch & Tr).
    destruct (child_takes k (snd kv) Ch) as (_ & M). unfold part. rewrite M. apply (IH kv I); [now apply S|exact Tr]. }
  assert (B : exists body, match k with KVec => vec_loop (Datatypes.S (length vals)) 0 ix (map part vals) | _ => concat_res (map part vals) end = Ok body).
  { destruct (concat_total _ P) as (body & Hb). exists body. destruct k; try exact Hb. rewrite <- Hb.
    apply (vec_all ix (length vals)) with (i := O); [|apply map_length|lia]. intros i. destruct Ix as (_ & Ix). rewrite Ix.
    specialize (Kv eq_refl). unfold plains in Kv. rewrite map_map, map_length in Kv. change (map (fun x : str * citem => fst (fst x, plain (snd x))) vals) with (map fst vals) in Kv. rewrite Kv. apply (pos_seq _ 0). }
  destruct B as (body & ->). cbn [bind]. eauto.
Qed.
Lemma settings_written ns c : sound c -> settings_shape (plain c) -> exists cs, write_ods_settings ns c = Ok cs.
Proof.
  intros S (l & E & T & Sets). destruct c as [v|k m]; [discriminate|]. rewrite plain_branch in E. injection E as -> E. fold (plains (cm_vals m)) in E. subst l.
  rewrite plain_branch in T. fold (plains (cm_vals m)) in T. apply tree_with_node in T as (_ & Ch). apply sound_map in S as (M & S).
  unfold write_ods_settings. cbn [write_settings].
  match goal with |- context [map ?g (cm_vals m)] => set (part := g) end.
  assert (P : Forall (fun p => exists cs, p = Ok cs) (map part (cm_vals m))).
  { rewrite Forall_map. unfold plains in *. rewrite Forall_map in Ch, Sets. rewrite Forall_forall in *. intros kv I. specialize (Ch kv I). specialize (Sets kv I). specialize (S kv I). cbn [snd] in *.
    unfold part. destruct (snd kv) as [v|k' m']; [destruct Sets as (? & Q); discriminate|]. destruct Sets as (m0 & Em). rewrite plain_branch in Em. injection Em as -> _.
    apply item_written; [exact S|apply Ch]. }
  destruct (concat_total _ P) as (body & ->). cbn [bind]. eauto.
Qed.
