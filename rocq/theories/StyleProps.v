(** Styles are written in the place for their origin and use, and read with that origin and use (C45). *)
From Verif Require Import Base Lib NumSpec NumModel NumProps EnumModel RefsModel RefsSpec RefsProofs XmlModel XmlSpec XmlProofs CellModel CellIoModel CellIoProofs BookModel BookProps ScriptProofs
  ValidModel ValidProofs StyleModel StyleSpec FlowProofs StyleProofs StyleDocProofs.
Require Import Permutation.

(** ** Where they are *)

Definition openings (l : list (family * named body)) : list (str * list (str * str)) := map (fun x => opening (fst x) (snd x)) l.

(** A style or value format belongs to one section of one file of a package, unless it is a named or default one of the origin content: that one is in
    none. In the flat file, it belongs to one section. *)
Theorem C45_one_place : forall o u x, (exists b, x = BStyle o u b) \/ (exists b, x = BFormat o u b) ->
  (belongs StylesXml x <> None <-> o = OStyles) /\ (belongs ContentXml x <> None <-> o = OContent /\ u = UAutomatic)
  /\ (forall fl, belongs fl x = None \/ belongs fl x = Some (match u with UAutomatic => SecAutomatic | _ => SecStyles end)) /\ belongs FlatXml x <> None.
Proof. intros o u x [(b & ->)|(b & ->)]; destruct o, u; cbn; repeat split; try congruence; try (intros []; congruence); intros []; auto. Qed.
Lemma sec_tag_in sec : In (section_tag sec) sec_tags.
Proof. destruct sec; cbn [section_tag]; unfold sec_tags; cbn; auto. Qed.
Lemma sections_at sec a b c : sections (section_tag sec) a b c = map open_of (match sec with SecStyles => a | SecAutomatic => b | SecMasters => c end).
Proof. unfold sections. destruct sec; cbn [section_tag].
  - replace (str_eqb t_office_styles (lit "office:styles")) with true by reflexivity. replace (str_eqb t_automatic (lit "office:styles")) with false by reflexivity.
    replace (str_eqb t_masters (lit "office:styles")) with false by reflexivity. cbn [app]. apply app_nil_r.
  - replace (str_eqb t_office_styles (lit "office:automatic-styles")) with false by reflexivity. replace (str_eqb t_automatic (lit "office:automatic-styles")) with true by reflexivity.
    replace (str_eqb t_masters (lit "office:automatic-styles")) with false by reflexivity. cbn [app]. apply app_nil_r.
  - replace (str_eqb t_office_styles (lit "office:master-styles")) with false by reflexivity. replace (str_eqb t_automatic (lit "office:master-styles")) with false by reflexivity.
    replace (str_eqb t_masters (lit "office:master-styles")) with true by reflexivity. reflexivity.
Qed.
Lemma add_start (m : list item) l : Forall2 own_read l m -> N.of_nat (length l) < u32_max -> exists sb', add_all m stylebook0 = Ok sb'.
Proof.
  intros F L. assert (E : length m = length l) by (clear L; induction F; cbn; congruence). destruct (add_ok m stylebook0 [] known_start) as (sb' & A & _); [rewrite E; cbn [length]; lia|]. eauto.
Qed.

(** The elements directly inside of a section are those of the entries that belong there, each once. *)
Theorem C45_styles_xml : forall lb b ns S, book_ok lb b -> small b -> attrs_ok ns -> styles_doc ns b = Ok S ->
  exists evs, read_events (render lb S) = Ok evs /\ forall sec, Permutation (declared (section_tag sec) [] evs) (openings (members StylesXml sec b)).
Proof.
  intros lb b ns S O Sm A E. destruct (styles_file lb b ns S O A E) as (m & F & H). destruct (items_length b OStyles) as (L & _).
  destruct (add_start m _ F) as (sb' & Ad); [unfold small in Sm; lia|]. destruct (H _ _ Ad) as (evs & R & _ & D). exists evs. split; [exact R|]. intros sec.
  rewrite D by apply sec_tag_in. rewrite sections_at. unfold openings, open_of. apply Permutation_map. destruct sec.
  - apply (styles_members lb); [exact O|left; auto].
  - apply (automatic_members lb); [exact O|left; left; auto].
  - rewrite (masters_members lb StylesXml) by (exact O || discriminate). reflexivity.
Qed.
Theorem C45_content_xml : forall lb b ns pre post C, book_ok lb b -> small b -> attrs_ok ns -> quiet lb pre -> quiet lb post -> content_doc ns pre b post = Ok C ->
  exists evs, read_events (render lb C) = Ok evs /\ forall sec, Permutation (declared (section_tag sec) [] evs) (openings (members ContentXml sec b)).
Proof.
  intros lb b ns pre post C O Sm A Q1 Q2 E. destruct (content_file lb b ns pre post C O A Q1 Q2 E) as (m & F & H). destruct (items_length b OContent) as (_ & L).
  destruct (add_start m _ F) as (sb' & Ad); [unfold small in Sm; lia|]. destruct (H _ _ Ad) as (evs & R & _ & D). exists evs. split; [exact R|]. intros sec.
  rewrite D by apply sec_tag_in. rewrite sections_at. unfold openings, open_of. destruct sec.
  - rewrite (content_members lb) by (exact O || discriminate). constructor.
  - apply Permutation_map, (automatic_members lb); [exact O|right; auto].
  - rewrite (content_members lb) by (exact O || discriminate). constructor.
Qed.
Lemma opening_converted f s : opening f (converted s) = opening f s.
Proof. destruct s as [n [o u x|o u x|x|x]]; reflexivity. Qed.
Lemma members_converted sec b : openings (members FlatXml sec (convert b)) = openings (members FlatXml sec b).
Proof.
  unfold openings, members. rewrite !flat_map_concat_map, !concat_map, !map_map. f_equal. apply map_ext. intros f. rewrite !map_map. cbn [fst snd]. unfold convert. cbn [sk_book bk_styles]. rewrite map_map. cbn [snd].
  induction (bk_styles (sk_book b) f) as [|[k s] l IH]; [reflexivity|]. cbn [map filter snd].
  replace (in_section FlatXml sec (converted s)) with (in_section FlatXml sec s) by (destruct s as [n [o u x|o u x|x|x]]; try reflexivity; unfold in_section; cbn; destruct o, u; reflexivity).
  destruct (in_section FlatXml sec s); cbn [map]; [rewrite opening_converted, IH; reflexivity|exact IH].
Qed.
Lemma small_converted b : small b -> small (convert b).
Proof.
  unfold small. intros H. replace (length (flat_map (fun f => bk_styles (sk_book (convert b)) f) kinds)) with (length (flat_map (fun f => bk_styles (sk_book b) f) kinds)); [exact H|].
  rewrite !flat_map_concat_map. generalize kinds. intros l. induction l as [|f l IH]; [reflexivity|]. cbn [map concat]. rewrite !app_length, IH. unfold convert. cbn [sk_book bk_styles]. now rewrite map_length.
Qed.
Theorem C45_flat_xml : forall lb b ns pre post S, book_ok lb b -> small b -> attrs_ok ns -> quiet lb pre -> quiet lb post -> fods_doc ns pre b post = Ok S ->
  exists evs, read_events (render lb S) = Ok evs /\ forall sec, Permutation (declared (section_tag sec) [] evs) (openings (members FlatXml sec b)).
Proof.
  intros lb b ns pre post S O Sm A Q1 Q2 E. destruct (flat_file lb b ns pre post S O A Q1 Q2 E) as (m & F & H). destruct (items_length (convert b) OContent) as (L & _).
  pose proof (small_converted b Sm) as Sm'. pose proof (converted_ok lb b O) as O'.
  destruct (add_start m _ F) as (sb' & Ad); [unfold small in Sm'; lia|]. destruct (H _ _ Ad) as (evs & R & _ & D). exists evs. split; [exact R|]. intros sec.
  rewrite <- members_converted. rewrite D by apply sec_tag_in. rewrite sections_at. unfold openings, open_of. apply Permutation_map. pose proof (converted_origin lb b O) as Fo. destruct sec.
  - now apply (styles_members lb).
  - apply (automatic_members lb); auto.
  - rewrite (masters_members lb FlatXml) by (exact O' || discriminate). reflexivity.
Qed.

(** ** What is read *)

Lemma found_start f k : found stylebook0 f k = None.
Proof. reflexivity. Qed.
Lemma found_book sb sb' f k : sk_book sb = sk_book sb' -> found sb f k = found sb' f k.
Proof. unfold found. now intros ->. Qed.
(** A package: the styles with a place in it come back with the same origin and use. *)
Theorem C45_ods : forall ns nc pre post b S C, book_ok false b -> small b -> attrs_ok ns -> attrs_ok nc -> quiet false pre -> quiet false post ->
  styles_doc ns b = Ok S -> content_doc nc pre b post = Ok C ->
  exists es ec b', read_events (render false S) = Ok es /\ read_events (render false C) = Ok ec /\ read_ods es ec = Ok b'
  /\ survives (fun x => belongs StylesXml x <> None \/ belongs ContentXml x <> None) origin_of b b'
  /\ (forall k ft, In (k, ft) (sk_fonts b) -> exists o, am_get k (sk_fonts b') = Some (Font k o (ft_attr ft)) /\ (o = OStyles <-> first_font b ft))
  /\ (forall k ft', am_get k (sk_fonts b') = Some ft' -> exists ft, In (k, ft) (sk_fonts b)).
Proof.
  intros ns nc pre post b S C O Sm A Ac Q1 Q2 Es Ec.
  destruct (styles_file false b ns S O A Es) as (m1 & F1 & H1). destruct (content_file false b nc pre post C O Ac Q1 Q2 Ec) as (m2 & F2 & H2).
  pose proof (Forall2_app F1 F2) as F. destruct (items_length b OStyles) as (L1 & _). destruct (items_length b OContent) as (_ & L2).
  destruct (add_start (m1 ++ m2) _ F) as (sb' & Ad); [rewrite app_length; unfold small in Sm; lia|].
  pose proof Ad as Ad0. apply add_two in Ad0 as (s1 & A1 & A2). destruct (H1 _ _ A1) as (es & R1 & P1 & _).
  pose proof (add_refont _ (put_fonts OStyles (fonts_of b OStyles) (sk_fonts stylebook0)) _ _ A2) as A2'.
  destruct (H2 _ _ A2') as (ec & R2 & P2 & _). cbn [sk_fonts sk_book] in P2.
  do 3 eexists. split; [exact R1|]. split; [exact R2|]. split; [unfold read_ods; rewrite P1; cbn [bind]; exact P2|]. split.
  - pose proof (fun It => found_after false b _ (m1 ++ m2) stylebook0 sb' O It F found_start Ad) as Fa. destruct Fa as (G1 & G2 & G3).
    + intros f s I. assert (J : exists fl sec, In (f, s) (members fl sec b)).
      { apply in_app_or in I as [I|I]; [apply in_app_or in I as [I|I]; [|apply in_app_or in I as [I|I]]|].
        - exists StylesXml, SecStyles. revert I. apply Permutation_in, (styles_members false); [exact O|left; auto].
        - exists StylesXml, SecAutomatic. revert I. apply Permutation_in, (automatic_members false); [exact O|left; left; auto].
        - exists StylesXml, SecMasters. rewrite <- (masters_members false StylesXml) by (exact O || discriminate). exact I.
        - exists ContentXml, SecAutomatic. revert I. apply Permutation_in, (automatic_members false); [exact O|right; auto]. }
      destruct J as (fl & sec & J). apply in_members in J. tauto.
    + assert (W : forall f s, In (f, s) ((styles_items b OStyles ++ automatic_items b OStyles ++ masters_items b) ++ automatic_items b OContent) <->
        In f kinds /\ entry b f s /\ (belongs StylesXml (nm_body s) <> None \/ belongs ContentXml (nm_body s) <> None)).
      { intros f s. rewrite !in_app_iff.
        assert (M1 : In (f, s) (styles_items b OStyles) <-> In (f, s) (members StylesXml SecStyles b)).
        { split; apply Permutation_in; [|apply Permutation_sym]; apply (styles_members false); auto; left; auto. }
        assert (M2 : In (f, s) (automatic_items b OStyles) <-> In (f, s) (members StylesXml SecAutomatic b)).
        { split; apply Permutation_in; [|apply Permutation_sym]; apply (automatic_members false); auto; left; left; auto. }
        assert (M4 : In (f, s) (automatic_items b OContent) <-> In (f, s) (members ContentXml SecAutomatic b)).
        { split; apply Permutation_in; [|apply Permutation_sym]; apply (automatic_members false); auto. }
        rewrite M1, M2, M4, (masters_members false StylesXml) by (exact O || discriminate). rewrite !in_members. unfold in_section.
        split; [intros X|intros (X1 & X2 & X3)].
        - destruct X as [[X|[X|X]]|X]; destruct X as (K & E & X); (split; [exact K|]); (split; [exact E|]); [left|left|left|right]; intros Z; rewrite Z in X; discriminate.
        - destruct (belongs StylesXml (nm_body s)) as [[]|] eqn:Z; [left; left|left; right; left|left; right; right|right]; try (split; [exact X1|split; [exact X2|reflexivity]]).
          destruct (belongs ContentXml (nm_body s)) as [[]|] eqn:Z2; [| |  |destruct X3 as [X3|X3]; now elim X3]; try (split; [exact X1|split; [exact X2|reflexivity]]);
            exfalso; destruct (nm_body s) as [[] [] ?|[] [] ?|?|?]; discriminate. }
      split; [|split].
      * intros f s K E Wr D. apply G1; [apply W; auto|exact D].
      * intros f s K E Wr D H. apply G2; [apply W; auto|exact D|]. intros t It. apply W in It as (_ & Et & Wt). now apply H.
      * intros f k s' Fs. destruct (G3 f k s' Fs) as (s & I & X). apply W in I as (K & E & Wr). exists s. auto.
  - assert (G : forall k, am_get k (put_fonts OContent (fonts_of b OContent) (put_fonts OStyles (fonts_of b OStyles) [])) =
      match am_get k (sk_fonts b) with
      | Some ft => Some (Font k (match ft_origin ft, fonts_of b OStyles with OStyles, ft0 :: _ => if str_eqb (ft_name ft0) k then OStyles else OContent | _, _ => OContent end) (ft_attr ft))
      | None => None end).
    { intros k. rewrite put_fonts_get by apply (fonts_names false b OContent O). rewrite (fonts_find false b OContent k O).
      assert (G1 : am_get k (put_fonts OStyles (fonts_of b OStyles) []) = match am_get k (sk_fonts b) with Some ft => if origin_eqb (ft_origin ft) OStyles then
        Some (Font k (match fonts_of b OStyles with ft0 :: _ => if str_eqb (ft_name ft0) k then OStyles else OContent | [] => OContent end) (ft_attr ft)) else None | None => None end).
      { rewrite put_fonts_get by apply (fonts_names false b OStyles O). rewrite (fonts_find false b OStyles k O). destruct (am_get k (sk_fonts b)) as [ft|]; [destruct (ft_origin ft)|]; reflexivity. }
      rewrite G1. destruct (am_get k (sk_fonts b)) as [ft|]; [|reflexivity]. destruct (ft_origin ft); [|reflexivity]. cbn [origin_eqb].
      destruct (fonts_of b OContent) as [|x l]; [reflexivity|]. destruct (str_eqb (ft_name x) k); reflexivity. }
    cbn [sk_fonts]. pose proof O as (_ & _ & N & Fo). split.
    + intros k ft I. rewrite G, (in_am_get k ft _ N I). eexists. split; [reflexivity|]. rewrite first_font_hd. destruct (Fo k ft I) as (E & _).
      assert (IF : ft_origin ft = OStyles -> In ft (fonts_of b OStyles)).
      { intros Q. apply filter_In. split; [apply in_map_iff; exists (k, ft); auto|now rewrite Q]. }
      destruct (ft_origin ft) eqn:Oft.
      * split; [discriminate|]. intros (r & Q). assert (I2 : In ft (fonts_of b OStyles)) by (rewrite Q; now left). apply filter_In in I2 as (_ & I2). rewrite Oft in I2. discriminate.
      * specialize (IF eq_refl). destruct (fonts_of b OStyles) as [|x l] eqn:Q; [contradiction|]. split.
        -- destruct (str_eqb (ft_name x) k) eqn:Ex; [|discriminate]. intros _. apply str_eqb_eq in Ex. exists l. f_equal.
           pose proof (fonts_names false b OStyles O) as Nd. rewrite Q in Nd. destruct IF as [IF|IF]; [exact IF|]. inversion Nd; subst. elim H3. rewrite Ex. now apply in_map.
        -- intros (r & Y). injection Y as -> _. rewrite E, str_eqb_refl. reflexivity.
    + intros k ft' Gk. rewrite G in Gk. destruct (am_get k (sk_fonts b)) as [ft|] eqn:Gf; [|discriminate]. exists ft.
      clear -Gf. induction (sk_fonts b) as [|[q w] l IH]; [discriminate|]. cbn [am_get] in Gf. destruct (str_eqb q k) eqn:E; [apply str_eqb_eq in E; subst; injection Gf as ->; now left|right; auto].
Qed.
(** A flat file: all come back, with the origin content and the same use. Only the fonts of the origin content are written. *)
Theorem C45_fods : forall ns pre post b S, book_ok true b -> small b -> attrs_ok ns -> quiet true pre -> quiet true post -> fods_doc ns pre b post = Ok S ->
  exists evs b', read_events (render true S) = Ok evs /\ read_fods evs = Ok b' /\ survives (fun _ => True) (fun _ => OContent) b b'
  /\ (forall k ft, In (k, ft) (sk_fonts b) -> am_get k (sk_fonts b') = if origin_eqb (ft_origin ft) OContent then Some ft else None)
  /\ (forall k ft', am_get k (sk_fonts b') = Some ft' -> exists ft, In (k, ft) (sk_fonts b)).
Proof.
  intros ns pre post b S O Sm A Q1 Q2 E. destruct (flat_file true b ns pre post S O A Q1 Q2 E) as (m & F & H). destruct (items_length (convert b) OContent) as (L & _).
  pose proof (small_converted b Sm) as Sm'. pose proof (converted_ok true b O) as O'.
  destruct (add_start m _ F) as (sb' & Ad); [unfold small in Sm'; lia|]. destruct (H _ _ Ad) as (evs & R & P & _).
  do 2 eexists. split; [exact R|]. split; [exact P|]. split.
  - pose proof (converted_origin true b O) as Fo.
    assert (W : forall f s, In (f, s) (styles_items (convert b) OContent ++ automatic_items (convert b) OContent ++ masters_items (convert b)) <-> In f kinds /\ entry (convert b) f s).
    { intros f s. rewrite !in_app_iff.
      assert (M1 : In (f, s) (styles_items (convert b) OContent) <-> In (f, s) (members FlatXml SecStyles (convert b))).
      { split; apply Permutation_in; [|apply Permutation_sym]; now apply (styles_members true). }
      assert (M2 : In (f, s) (automatic_items (convert b) OContent) <-> In (f, s) (members FlatXml SecAutomatic (convert b))).
      { split; apply Permutation_in; [|apply Permutation_sym]; apply (automatic_members true); auto. }
      rewrite M1, M2, (masters_members true FlatXml) by (exact O' || discriminate). rewrite !in_members. unfold in_section. split; [intros [X|[X|X]]; tauto|].
      intros (K & Ee). destruct (belongs FlatXml (nm_body s)) as [[]|] eqn:Z; auto. exfalso. destruct (nm_body s) as [[] [] ?|[] [] ?|?|?]; discriminate. }
    destruct (found_after true (convert b) _ m stylebook0 sb' O' (fun f s i => proj1 (W f s) i) F found_start Ad) as (G1 & G2 & G3).
    assert (Cv : forall s, nm_name (converted s) = nm_name s /\ is_default (nm_body (converted s)) = is_default (nm_body s) /\ read_use (nm_body (converted s)) = read_use (nm_body s)
      /\ origin_of (nm_body (converted s)) = OContent /\ forall f y, same_as f OContent (read_use (nm_body s)) (nm_body (converted s)) y <-> same_as f OContent (read_use (nm_body s)) (nm_body s) y).
    { intros [n [o u x|o u x|x|x]]; repeat split; auto. }
    split; [|split].
    + intros f s K Ee _ D. destruct (Cv s) as (C1 & C2 & C3 & C4 & C5). destruct (G1 f (converted s)) as (y & Fy & Sy); [apply W; split; [exact K|apply converted_entry; eauto]|congruence|].
      rewrite C1, C3, C4 in *. exists y. split; [exact Fy|]. now apply C5.
    + intros f s K Ee _ D Hn. destruct (Cv s) as (C1 & C2 & C3 & C4 & C5). destruct (G2 f (converted s)) as (k & y & Fy & Ny & Sy); [apply W; split; [exact K|apply converted_entry; eauto]|congruence| |].
      { intros t It. apply W in It as (_ & Et). apply converted_entry in Et as (t' & Et & ->). destruct (Cv t') as (T1 & T2 & _). rewrite T1, T2. intros Dt. now apply Hn. }
      rewrite C3, C4 in *. exists k, y. split; [exact Fy|]. split; [exact Ny|]. now apply C5.
    + intros f k s' Fs. destruct (G3 f k s' Fs) as (s & I & N1 & Sy & X). apply W in I as (K & Et). apply converted_entry in Et as (t & Et & ->). destruct (Cv t) as (C1 & C2 & C3 & C4 & C5).
      rewrite C1, C2, C3, C4 in *. exists t. split; [exact K|]. split; [exact Et|]. split; [exact I|]. split; [exact N1|]. split; [now apply C5|exact X].
  - cbn [sk_fonts]. change (sk_fonts stylebook0) with (@nil (str * font)).
    assert (G : forall k, am_get k (put_fonts OContent (fonts_of b OContent) []) = match am_get k (sk_fonts b) with Some ft => if origin_eqb (ft_origin ft) OContent then Some (Font k OContent (ft_attr ft)) else None | None => None end).
    { intros k. rewrite put_fonts_get by apply (fonts_names true b OContent O). rewrite (fonts_find true b OContent k O). destruct (am_get k (sk_fonts b)) as [ft|]; [|reflexivity].
      destruct (ft_origin ft); [|reflexivity]. cbn [origin_eqb]. destruct (fonts_of b OContent) as [|x l]; [reflexivity|]. destruct (str_eqb (ft_name x) k); reflexivity. }
    pose proof O as (_ & _ & N & Fo). split.
    + intros k ft I. rewrite G, (in_am_get k ft _ N I). destruct (Fo k ft I) as (En & _). destruct ft as [n o a]. cbn [ft_name ft_origin ft_attr] in *. subst n. destruct o; reflexivity.
    + intros k ft' Gk. rewrite G in Gk. destruct (am_get k (sk_fonts b)) as [ft|] eqn:Gf; [|discriminate]. exists ft.
      clear -Gf. induction (sk_fonts b) as [|[q w] l IH]; [discriminate|]. cbn [am_get] in Gf. destruct (str_eqb q k) eqn:E; [apply str_eqb_eq in E; subst; injection Gf as ->; now left|right; auto].
Qed.

(** ** Examples *)

Lemma quiet_nil lb : quiet lb [].
Proof. exists []. split; [apply flows_nil|]. split; [constructor|]. intros n a []. Qed.
(** Elements with other names than those of the sections are such a part. *)
Fixpoint no_section (x : xnode) : Prop :=
  match x with XText _ => True | XTag n _ c => ~ In n [lit "office:font-face-decls"; lit "office:styles"; lit "office:automatic-styles"; lit "office:master-styles"]
    /\ (fix all (l : list xnode) : Prop := match l with [] => True | y :: l' => no_section y /\ all l' end) c end.
Lemma quiet_nodes lb l : Forall names_ok l -> Forall no_section l -> quiet lb (flat_map write_node l).
Proof.
  intros N S. exists (flat_map (node_events lb) l). split; [now apply flows_nodes|]. clear N.
  assert (T : forall t r, balanced r -> balanced (esc_split t ++ r)).
  { intros t r B. induction t as [|c t IH]; [exact B|]. unfold esc_split. cbn [map app]. fold (esc_split t). destruct (entity_of c); apply bal_flat; auto; exact I. }
  assert (X : forall x, no_section x -> (forall r, balanced r -> balanced (node_events lb x ++ r)) /\ forall n a, In (EStart n a) (node_events lb x) ->
    ~ In n [lit "office:font-face-decls"; lit "office:styles"; lit "office:automatic-styles"; lit "office:master-styles"]).
  { induction x as [t|n a c IH] using xnode_ind'; intros H.
    - split; [intros r; apply T|]. cbn [node_events]. intros n a I. exfalso. unfold esc_split in I. apply in_map_iff in I as (q & E & _). destruct (entity_of q); discriminate.
    - cbn [no_section] in H. destruct H as (H & C0). assert (C : Forall no_section c) by (clear -C0; induction c as [|y c IHc]; constructor; [apply C0|apply IHc, C0]). clear C0.
      assert (Y : (forall r, balanced r -> balanced (flat_map (node_events lb) c ++ r)) /\ forall m b, In (EStart m b) (flat_map (node_events lb) c) ->
        ~ In m [lit "office:font-face-decls"; lit "office:styles"; lit "office:automatic-styles"; lit "office:master-styles"]).
      { clear H. induction C as [|y c Hy _ IHc]; [split; [auto|intros ? ? []]|]. inversion IH; subst. destruct (H1 Hy) as (B1 & B2). destruct (IHc H2) as (B3 & B4). cbn [flat_map]. split.
        - intros r B. rewrite <- app_assoc. auto.
        - intros m b J. apply in_app_or in J as [J|J]; eauto. }
      destruct Y as (Y1 & Y2). cbn [node_events]. destruct c as [|y c].
      + split; [intros r B; cbn [app]; apply bal_flat; [exact I|apply bal_flat; [exact I|exact B]]|]. intros m b [J|[J|[]]]; discriminate.
      + split.
        * intros r B. cbn [app]. rewrite <- app_assoc. cbn [app]. apply bal_elem; [rewrite <- (app_nil_r (flat_map _ _)); apply Y1; constructor|apply bal_flat; [exact I|exact B]].
        * intros m b [J|J]; [injection J as <- _; exact H|]. apply in_app_or in J as [J|[J|[J|[]]]]; try discriminate. now apply (Y2 m b). }
  induction S as [|x l Hx _ (B & M)]; cbn [flat_map]; [split; [constructor|intros ? ? []]|]. destruct (X x Hx) as (X1 & X2). split; [now apply X1|].
  intros n a J. apply in_app_or in J as [J|J]; [now apply (X2 n a)|now apply (M n a)].
Qed.

Definition pack (b : stylebook) : res stylebook :=
  let* s := styles_doc [] b in let* c := content_doc [] [] b [] in let* es := read_events (render false s) in let* ec := read_events (render false c) in read_ods es ec.
Definition flat (b : stylebook) : res stylebook := let* s := fods_doc [] [] b [] in let* es := read_events (render true s) in read_fods es.
Definition one (f : family) (k : str) (x : body) : stylebook := SBook [] (Book [] (fun g => if family_eqb f g then [(k, Named k x)] else [])).
Definition plain_style : sbody := SBody [] [(lit "fo:color", lit "#ff0000")] [] [] None None.
Definition plain_format : fbody := FBody [] [] [Part PNumber [(lit "number:min-integer-digits", lit "1")] None None] None.

Lemma one_ok lb f k x : k <> [] -> body_ok lb f x -> book_ok lb (one f k x).
Proof.
  intros K B. split; [|split; [|split; [constructor|intros ? ? []]]]; unfold one; cbn [sk_book bk_styles].
  - intros g _. destruct (family_eqb f g); repeat constructor. intros [].
  - intros g q s _ I. destruct (family_eqb f g) eqn:E; [|contradiction]. apply family_eqb_eq in E. subst g. destruct I as [I|[]]. injection I as <- <-. auto.
Qed.
Lemma plain_ok f : In f style_kinds -> uses_main f = true -> style_ok f plain_style.
Proof.
  intros K U. split; [exact K|]. unfold plain_style. cbn [sb_attr sb_main sb_para sb_text sb_tabs sb_maps]. split; [constructor|]. split; [apply Forall_cons; [name_lit|constructor]|].
  split; [constructor|]. split; [constructor|]. split; [discriminate|]. split; [discriminate|]. split; [congruence|]. auto.
Qed.
Lemma plain_format_ok lb : format_ok lb FmtNumber plain_format.
Proof.
  split; [cbn; auto|]. unfold plain_format. cbn [fb_attr fb_text fb_parts]. split; [constructor|]. split; [intros []|]. split; [constructor|]. apply Forall_cons; [|constructor].
  split; [apply Forall_cons; [name_lit|constructor]|]. reflexivity.
Qed.

(** ** Writing succeeds *)

Lemma cat_total {A} (g : A -> res (list call)) l : (forall x, In x l -> exists c, g x = Ok c) -> exists c, cat_calls g l = Ok c.
Proof.
  induction l as [|x l IH]; intros H; [now exists []|]. destruct (H x (or_introl eq_refl)) as (a & A1). destruct IH as (c & C); [intros y I; apply H; now right|].
  exists (a ++ c). cbn [cat_calls]. rewrite A1. cbn [bind]. rewrite C. reflexivity.
Qed.
Lemma family_total lb b o u f : book_ok lb b -> f <> FValidation -> exists c, family_calls b o u f = Ok c.
Proof.
  intros (_ & B & _) V. apply cat_total. intros [k s] I. destruct (B f k s V I) as (_ & _ & K). cbn [snd]. unfold item_calls. destruct (nm_body s) as [o' u' x|o' u' x|x|x]; cbn [body_ok] in K.
  - destruct (origin_eqb o' o && suse_eqb u' u); [|eauto]. unfold style_calls. assert (T : exists i, style_inner f x = Ok i); [|destruct T as (i & ->); cbn [bind]; eauto].
    unfold style_inner. destruct f; eauto. destruct K as (_ & _ & _ & _ & _ & _ & M & _). destruct (sb_maps x) as [ms|]; [|cbn [bind]; eauto].
    destruct (M ms eq_refl) as (_ & F). destruct (cat_total smap_calls ms) as (c & ->); [|cbn [bind]; eauto].
    intros m J. rewrite Forall_forall in F. specialize (F m J). unfold smap_calls, smap_ok in *. destruct (sp_base m) as [r|]; [|cbn [bind]; eauto].
    destruct F as (U & _). destruct (cellref_text_ok r U) as (t & T & _). rewrite T. cbn [bind]. eauto.
  - destruct (origin_eqb o' o && suse_eqb u' u); eauto.
  - eauto.
  - eauto.
Qed.
Lemma families_total lb b o u l : book_ok lb b -> ~ In FValidation l -> exists c, cat_calls (family_calls b o u) l = Ok c.
Proof. intros O V. apply cat_total. intros f I. apply (family_total lb); [exact O|]. intros ->. auto. Qed.
Lemma office_total lb b o : book_ok lb b -> exists c, write_office_styles b o = Ok c.
Proof.
  intros O. assert (S : forall u, exists c, write_styles b o u = Ok c) by (intros u; apply (families_total lb); [exact O|cbn; intros I; repeat destruct I as [I|I]; discriminate || contradiction]).
  assert (F : forall u, exists c, write_formats b o u = Ok c) by (intros u; apply (families_total lb); [exact O|cbn; intros I; repeat destruct I as [I|I]; discriminate || contradiction]).
  unfold write_office_styles. destruct (S UDefault) as (? & ->), (S UNamed) as (? & ->), (F UNamed) as (? & ->), (F UDefault) as (? & ->). cbn [bind]. eauto.
Qed.
Lemma automatic_total lb b o : book_ok lb b -> exists c, write_automatic b o = Ok c.
Proof.
  intros O. assert (S : exists c, write_styles b o UAutomatic = Ok c) by (apply (families_total lb); [exact O|cbn; intros I; repeat destruct I as [I|I]; discriminate || contradiction]).
  assert (F : exists c, write_formats b o UAutomatic = Ok c) by (apply (families_total lb); [exact O|cbn; intros I; repeat destruct I as [I|I]; discriminate || contradiction]).
  destruct (family_total lb b o UAutomatic FPage O) as (? & P); [discriminate|]. unfold write_automatic. rewrite P. destruct S as (? & ->), F as (? & ->). cbn [bind]. eauto.
Qed.
Lemma masters_total lb b : book_ok lb b -> exists c, write_masters b = Ok c.
Proof. intros O. destruct (family_total lb b OStyles UNamed FMasterPage O) as (? & P); [discriminate|]. unfold write_masters. rewrite P. cbn [bind]. eauto. Qed.
Theorem C45_written : forall lb ns pre post b, book_ok lb b ->
  (exists S, styles_doc ns b = Ok S) /\ (exists C, content_doc ns pre b post = Ok C) /\ (exists D, fods_doc ns pre b post = Ok D).
Proof.
  intros lb ns pre post b O. pose proof (converted_ok lb b O) as O'. unfold styles_doc, content_doc, fods_doc.
  destruct (office_total lb b OStyles O) as (? & ->), (automatic_total lb b OStyles O) as (? & ->), (automatic_total lb b OContent O) as (? & ->), (masters_total lb b O) as (? & ->).
  destruct (office_total lb _ OContent O') as (? & ->), (automatic_total lb _ OContent O') as (? & ->), (masters_total lb _ O') as (? & ->). cbn [bind]. repeat split; eauto.
Qed.

(** A workbook with a style for each place. *)
Definition ex_styles (f : family) : amap (named body) :=
  match f with
  | FCell => [(lit "Default", Named (lit "Default") (BStyle OStyles UDefault plain_style)); (lit "Heading", Named (lit "Heading") (BStyle OStyles UNamed plain_style));
              (lit "x1", Named (lit "x1") (BStyle OContent UAutomatic plain_style))]
  | FCol => [(lit "co1", Named (lit "co1") (BStyle OStyles UAutomatic plain_style))]
  | FmtNumber => [(lit "N1", Named (lit "N1") (BFormat OContent UAutomatic plain_format)); (lit "N2", Named (lit "N2") (BFormat OStyles UNamed plain_format))]
  | FPage => [(lit "Mpm1", Named (lit "Mpm1") (BPage (PBody None [(lit "fo:margin", lit "1cm")] [] [])))]
  | FMasterPage => [(lit "Default", Named (lit "Default") (BMaster (MBody [] (Some (lit "Mpm1")) None (HF true [] [text_p (lit "middle")] [] []) hf_default hf_default
                     (HF false [] [] [] [text_p (lit "a & b")]) hf_default hf_default)))]
  | _ => []
  end.
Definition ex_fonts : amap font := [(lit "Arial", Font (lit "Arial") OStyles []); (lit "Sans", Font (lit "Sans") OContent [(lit "svg:font-family", lit "Sans")])].
Definition ex_book : stylebook := SBook ex_fonts (Book [] ex_styles).
Example C45_ex_ok : book_ok false ex_book /\ small ex_book.
Proof.
  split; [|vm_compute; reflexivity]. split; [|split; [|split]]; cbn [ex_book sk_book bk_styles sk_fonts].
  - intros f _. destruct f; cbn [ex_styles map fst]; repeat constructor; cbn; intros I; repeat destruct I as [I|I]; try discriminate; contradiction.
  - intros f k s _ I. destruct f; cbn [ex_styles In] in I; try contradiction; repeat destruct I as [I|I]; try contradiction; injection I as <- <-; (split; [discriminate|]); (split; [reflexivity|]); cbn [nm_body body_ok];
      try (apply plain_ok; [cbn; tauto|reflexivity]); try apply plain_format_ok.
    + split; [reflexivity|]. split; [apply Forall_cons; [name_lit|constructor]|]. split; constructor.
    + split; [reflexivity|]. intros []; cbn [mp_hf mp_header mp_header_first mp_header_left mp_footer mp_footer_first mp_footer_left]; try solve [repeat split; constructor].
      * split; [constructor|]. split; [|split; constructor]. apply Forall_cons; [|constructor]. split; [reflexivity|]. split; [exact I|]. split; [apply names_ok_tag; split; [name_lit|split; [constructor|constructor; [exact I|constructor]]]|].
        cbn [lacks text_p]. repeat split. right. discriminate.
      * split; [constructor|]. split; [constructor|]. split; [constructor|]. apply Forall_cons; [|constructor]. exists (lit "a & b"). split; [reflexivity|discriminate].
  - repeat constructor; cbn; intros I; repeat destruct I as [I|I]; try discriminate; contradiction.
  - intros k ft I. cbn [ex_fonts In] in I. repeat destruct I as [I|I]; try contradiction; injection I as <- <-; (split; [reflexivity|]); split; try (intros [I|I]; [discriminate|contradiction]); try (intros []).
    + constructor.
    + apply Forall_cons; [name_lit|constructor].
Qed.
Example C45_ex : exists b, pack ex_book = Ok b
  /\ found b FCell (lit "Heading") = Some (Named (lit "Heading") (BStyle OStyles UNamed (style_read FCell plain_style)))
  /\ found b FCell (lit "x1") = Some (Named (lit "x1") (BStyle OContent UAutomatic (style_read FCell plain_style)))
  /\ found b FCell (lit "Default") = None /\ found b FCell (lit "ce0") = Some (Named (lit "ce0") (BStyle OStyles UDefault (style_read FCell plain_style)))
  /\ found b FCol (lit "co1") = Some (Named (lit "co1") (BStyle OStyles UAutomatic (style_read FCol plain_style)))
  /\ found b FmtNumber (lit "N1") = found ex_book FmtNumber (lit "N1") /\ found b FmtNumber (lit "N2") = found ex_book FmtNumber (lit "N2")
  /\ found b FPage (lit "Mpm1") = found ex_book FPage (lit "Mpm1") /\ found b FMasterPage (lit "Default") = found ex_book FMasterPage (lit "Default")
  /\ am_get (lit "Arial") (sk_fonts b) = am_get (lit "Arial") ex_fonts /\ am_get (lit "Sans") (sk_fonts b) = am_get (lit "Sans") ex_fonts.
Proof. eexists. split; [vm_compute; reflexivity|]. vm_compute. repeat split; reflexivity. Qed.
Example C45_places_ex : map (fun q => map fst (openings (members StylesXml q ex_book))) [SecStyles; SecAutomatic; SecMasters]
    = [[lit "style:default-style"; lit "style:style"; lit "number:number-style"]; [lit "style:style"; lit "style:page-layout"]; [lit "style:master-page"]]
  /\ map (fun q => map fst (openings (members ContentXml q ex_book))) [SecStyles; SecAutomatic; SecMasters] = [[]; [lit "style:style"; lit "number:number-style"; lit "style:page-layout"]; []].
Proof. split; vm_compute; reflexivity. Qed.

(** ** What is false *)

(** A named style of the origin content is written into no file of a package. *)
Theorem C45_content_named_refuted : exists b s b', book_ok false b /\ small b /\ entry b FCell s /\ nm_body s = BStyle OContent UNamed plain_style
  /\ pack b = Ok b' /\ forall f k, found b' f k = None.
Proof.
  exists (one FCell (lit "Heading") (BStyle OContent UNamed plain_style)). do 2 eexists. split; [apply one_ok; [discriminate|apply plain_ok; [cbn; tauto|reflexivity]]|].
  split; [vm_compute; reflexivity|]. split; [left; reflexivity|]. split; [reflexivity|]. split; [vm_compute; reflexivity|]. intros f k. reflexivity.
Qed.
(** A workbook that has been written to a flat file is changed: what is then written to a package has lost its named styles. *)
Theorem C45_flat_first_refuted : exists b s b1 b2, book_ok false b /\ small b /\ pack b = Ok b1 /\ found b1 FCell (lit "Heading") = Some s
  /\ pack (convert b) = Ok b2 /\ found b2 FCell (lit "Heading") = None.
Proof.
  exists (one FCell (lit "Heading") (BStyle OStyles UNamed plain_style)). do 3 eexists. split; [apply one_ok; [discriminate|apply plain_ok; [cbn; tauto|reflexivity]]|].
  split; [vm_compute; reflexivity|]. split; [vm_compute; reflexivity|]. split; [vm_compute; reflexivity|]. split; vm_compute; reflexivity.
Qed.
(** A default value format is read as a named one. *)
Theorem C45_default_format_refuted : exists b b', book_ok false b /\ small b /\ found b FmtNumber (lit "N1") = Some (Named (lit "N1") (BFormat OStyles UDefault plain_format))
  /\ pack b = Ok b' /\ found b' FmtNumber (lit "N1") = Some (Named (lit "N1") (BFormat OStyles UNamed plain_format)).
Proof.
  exists (one FmtNumber (lit "N1") (BFormat OStyles UDefault plain_format)). eexists. split; [apply one_ok; [discriminate|apply plain_format_ok]|].
  split; [vm_compute; reflexivity|]. split; [reflexivity|]. split; vm_compute; reflexivity.
Qed.
(** A default style gets an automatic name, which a style read later may have; then it is lost. *)
Theorem C45_default_lost_refuted : exists b b', (forall f, NoDup (map fst (bk_styles (sk_book b) f))) /\ entry b FCell (Named (lit "Default") (BStyle OStyles UDefault plain_style))
  /\ pack b = Ok b' /\ forall k o x, found b' FCell k <> Some (Named k (BStyle o UDefault x)).
Proof.
  exists (SBook [] (Book [] (fun f => match f with FCell => [(lit "Default", Named (lit "Default") (BStyle OStyles UDefault plain_style));
    (lit "ce0", Named (lit "ce0") (BStyle OContent UAutomatic plain_style))] | _ => [] end))). eexists. split; [|split; [left; reflexivity|split; [vm_compute; reflexivity|]]].
  - intros f. destruct f; cbn; repeat constructor; cbn; intros I; repeat destruct I as [I|I]; try discriminate; contradiction.
  - intros k o x. unfold found. cbn [sk_book bk_styles]. cbn [am_get]. match goal with |- (if ?e then _ else _) <> _ => destruct e end; discriminate.
Qed.
(** The second font of styles.xml gets the origin content; in the flat file, fonts of the origin styles are lost. *)
Definition two_fonts : stylebook := SBook [(lit "Arial", Font (lit "Arial") OStyles []); (lit "Sans", Font (lit "Sans") OStyles [])] (Book [] (fun _ => [])).
Theorem C45_fonts_refuted : exists b b1 b2, map (fun x => ft_origin (snd x)) (sk_fonts b) = [OStyles; OStyles] /\ pack b = Ok b1 /\ flat b = Ok b2
  /\ am_get (lit "Arial") (sk_fonts b1) = Some (Font (lit "Arial") OStyles []) /\ am_get (lit "Sans") (sk_fonts b1) = Some (Font (lit "Sans") OContent []) /\ sk_fonts b2 = [].
Proof. exists two_fonts. do 2 eexists. split; [reflexivity|]. split; [vm_compute; reflexivity|]. split; [vm_compute; reflexivity|]. split; [vm_compute; reflexivity|]. split; vm_compute; reflexivity. Qed.
(** A page layout is written into both files. *)
Theorem C45_page_twice_refuted : exists b x, members StylesXml SecAutomatic b = [x] /\ members ContentXml SecAutomatic b = [x].
Proof. exists (one FPage (lit "Mpm1") (BPage (PBody None [] [] []))). eexists. split; reflexivity. Qed.
(** The tab stops of a paragraph style without paragraph properties are lost. *)
Theorem C45_tabs_refuted : exists b b' x, book_ok false b /\ small b /\ found b FParagraph (lit "P1") = Some (Named (lit "P1") (BStyle OContent UAutomatic x)) /\ sb_tabs x = Some [[(lit "style:position", lit "1cm")]]
  /\ pack b = Ok b' /\ exists y, found b' FParagraph (lit "P1") = Some (Named (lit "P1") (BStyle OContent UAutomatic y)) /\ sb_tabs y = None.
Proof.
  exists (one FParagraph (lit "P1") (BStyle OContent UAutomatic (SBody [] [] [] [] (Some [[(lit "style:position", lit "1cm")]]) None))). do 2 eexists. split.
  - apply one_ok; [discriminate|]. split; [cbn; tauto|]. cbn [sb_attr sb_main sb_para sb_text sb_tabs sb_maps]. split; [constructor|]. split; [constructor|]. split; [constructor|]. split; [constructor|].
    split; [|split; [discriminate|auto]]. intros ts E. injection E as <-. split; [reflexivity|]. apply Forall_cons; [|constructor]. apply Forall_cons; [name_lit|constructor].
  - split; [vm_compute; reflexivity|]. split; [reflexivity|]. split; [reflexivity|]. split; [vm_compute; reflexivity|]. eexists. split; vm_compute; reflexivity.
Qed.

(** ** C50: the contents *)

(** What is kept of a style: everything but tab stops without paragraph properties. *)
Definition style_kept (x x' : sbody) : Prop :=
  (forall k, k <> lit "style:name" -> k <> lit "style:family" -> am_get k (sb_attr x') = am_get k (sb_attr x))
  /\ sb_main x' = sb_main x /\ sb_para x' = sb_para x /\ sb_text x' = sb_text x
  /\ match sb_maps x with Some (m :: ms) => sb_maps x' = Some (m :: ms) | _ => sb_maps x' = None end
  /\ (sb_para x <> [] -> match sb_tabs x with Some (t :: ts) => sb_tabs x' = Some (t :: ts) | _ => sb_tabs x' = None end).
Definition format_kept (x x' : fbody) : Prop :=
  fb_attr x' = fb_attr x /\ fb_text x' = fb_text x /\ fb_parts x' = fb_parts x
  /\ match fb_maps x with Some (m :: ms) => fb_maps x' = Some (m :: ms) | _ => fb_maps x' = None end.
Definition kept (x y : body) : Prop :=
  match x, y with
  | BStyle _ _ s, BStyle _ _ s' => style_kept s s'
  | BFormat _ _ s, BFormat _ _ s' => format_kept s s'
  | BPage s, BPage s' => s' = s
  | BMaster s, BMaster s' => master_same s s'
  | _, _ => False
  end.
Lemma filter_get k (a : attrs) : k <> lit "style:name" -> k <> lit "style:family" -> am_get k (filter kept_attr a) = am_get k a.
Proof.
  intros N F. induction a as [|[q v] a IH]; [reflexivity|]. cbn [filter]. unfold kept_attr at 1. cbn [fst].
  destruct (str_eqb q (lit "style:name")) eqn:E1; [|destruct (str_eqb q (lit "style:family")) eqn:E2].
  - apply str_eqb_eq in E1. cbn [negb andb am_get]. rewrite IH. rewrite E1. rewrite (proj2 (str_eqb_neq _ _)) by congruence. reflexivity.
  - apply str_eqb_eq in E2. cbn [negb andb am_get]. rewrite IH. rewrite E2. rewrite (proj2 (str_eqb_neq _ _)) by congruence. reflexivity.
  - cbn [negb andb am_get]. rewrite IH. reflexivity.
Qed.
Lemma kept_same f o u x y : same_as f o u x y -> kept x y.
Proof.
  destruct x as [o' u' s|o' u' s|s|s]; cbn [same_as].
  - intros ->. unfold kept, style_kept, style_read. cbn [sb_attr sb_main sb_para sb_text sb_maps sb_tabs]. repeat split.
    + intros k N F. cbn [am_get]. rewrite (proj2 (str_eqb_neq _ _)) by congruence. now apply filter_get.
    + destruct (sb_maps s) as [[|]|]; reflexivity.
    + intros P. destruct (sb_para s); [congruence|]. destruct (sb_tabs s) as [[|]|]; reflexivity.
  - intros ->. unfold kept, format_kept, format_read. cbn [fb_attr fb_text fb_parts fb_maps]. repeat split. destruct (fb_maps s) as [[|]|]; reflexivity.
  - intros ->. reflexivity.
  - intros (b' & -> & M). exact M.
Qed.
Theorem C50_ods : forall ns nc pre post b S C, book_ok false b -> small b -> attrs_ok ns -> attrs_ok nc -> quiet false pre -> quiet false post ->
  styles_doc ns b = Ok S -> content_doc nc pre b post = Ok C ->
  exists es ec b', read_events (render false S) = Ok es /\ read_events (render false C) = Ok ec /\ read_ods es ec = Ok b'
  /\ forall f s, In f kinds -> entry b f s -> is_default (nm_body s) = false -> belongs StylesXml (nm_body s) <> None \/ belongs ContentXml (nm_body s) <> None ->
     exists y, found b' f (nm_name s) = Some (Named (nm_name s) y) /\ kept (nm_body s) y.
Proof.
  intros ns nc pre post b S C O Sm A Ac Q1 Q2 Es Ec. destruct (C45_ods ns nc pre post b S C O Sm A Ac Q1 Q2 Es Ec) as (es & ec & b' & R1 & R2 & R3 & (Su & _) & _).
  exists es, ec, b'. repeat (split; [assumption|]). intros f s K E D W. destruct (Su f s K E W D) as (y & F & Y). exists y. split; [exact F|]. eapply kept_same, Y.
Qed.
Theorem C50_fods : forall ns pre post b S, book_ok true b -> small b -> attrs_ok ns -> quiet true pre -> quiet true post -> fods_doc ns pre b post = Ok S ->
  exists evs b', read_events (render true S) = Ok evs /\ read_fods evs = Ok b'
  /\ forall f s, In f kinds -> entry b f s -> is_default (nm_body s) = false -> exists y, found b' f (nm_name s) = Some (Named (nm_name s) y) /\ kept (nm_body s) y.
Proof.
  intros ns pre post b S O Sm A Q1 Q2 E. destruct (C45_fods ns pre post b S O Sm A Q1 Q2 E) as (evs & b' & R1 & R2 & (Su & _) & _).
  exists evs, b'. repeat (split; [assumption|]). intros f s K E' D. destruct (Su f s K E' I D) as (y & F & Y). exists y. split; [exact F|]. eapply kept_same, Y.
Qed.
(** A cell style with a condition, a number format with an embedded text and a paragraph style with tab stops. *)
Definition map_style : sbody := SBody [(lit "style:parent-style-name", lit "Default")] [(lit "fo:padding", lit "1mm")] [(lit "fo:text-align", lit "end")] [(lit "fo:color", lit "#fff")]
  None (Some [SMap (lit "cell-content()>""a""") (lit "Heading") (Some (mkCellRef None None false 4 true 1))]).
Definition text_format : fbody := FBody [(lit "number:language", lit "de")] [(lit "fo:color", lit "red")]
  [Part PNumber [(lit "number:decimal-places", lit "2")] (Some 3%Z) (Some (lit ".")); Part PTextPart [] None (Some (lit " <EUR> ")); Part PCurrency [] None None] (Some [(lit "value()>=0", lit "N1")]).
Definition contents_book : stylebook := SBook [] (Book [] (fun f => match f with
  | FCell => [(lit "c", Named (lit "c") (BStyle OContent UAutomatic map_style))]
  | FmtCurrency => [(lit "m", Named (lit "m") (BFormat OContent UAutomatic text_format))]
  | FParagraph => [(lit "p", Named (lit "p") (BStyle OStyles UNamed (SBody [] [] [(lit "fo:margin", lit "0")] [] (Some [[(lit "style:position", lit "1cm")]; []]) None)))]
  | _ => [] end)).
Example C50_ex : exists b, pack contents_book = Ok b /\ found b FmtCurrency (lit "m") = found contents_book FmtCurrency (lit "m")
  /\ found b FCell (lit "c") = Some (Named (lit "c") (BStyle OContent UAutomatic (style_read FCell map_style)))
  /\ sb_maps (style_read FCell map_style) = sb_maps map_style
  /\ exists x, found b FParagraph (lit "p") = Some (Named (lit "p") (BStyle OStyles UNamed x)) /\ sb_tabs x = Some [[(lit "style:position", lit "1cm")]; []].
Proof. eexists. split; [vm_compute; reflexivity|]. split; [vm_compute; reflexivity|]. split; [vm_compute; reflexivity|]. split; [reflexivity|]. eexists. split; vm_compute; reflexivity. Qed.

Definition parts_of (r : res stylebook) (f : family) (k : str) : option (list part) :=
  match r with Ok b => match found b f k with Some (Named _ (BFormat _ _ x)) => Some (fb_parts x) | _ => None end | _ => None end.
Definition one_part (p : part) : stylebook := one FmtNumber (lit "N") (BFormat OContent UAutomatic (FBody [] [] [p] None)).
(** Of an embedded text with a character that is escaped, what comes after it is all that is read; *)
Theorem C50_embedded_refuted : exists p, pt_content p = Some (lit "a&b") /\ exists p', parts_of (pack (one_part p)) FmtNumber (lit "N") = Some [p'] /\ pt_content p' = Some (lit "b").
Proof. exists (Part PNumber [] (Some 1%Z) (Some (lit "a&b"))). split; [reflexivity|]. eexists. split; vm_compute; reflexivity. Qed.
(** in a flat file, the line break that follows the element; *)
Theorem C50_embedded_flat_refuted : exists p, pt_content p = Some (lit "ab") /\ exists p', parts_of (flat (one_part p)) FmtNumber (lit "N") = Some [p'] /\ pt_content p' = Some [10].
Proof. exists (Part PNumber [] (Some 1%Z) (Some (lit "ab"))). split; [reflexivity|]. eexists. split; vm_compute; reflexivity. Qed.
(** and without a position, nothing. *)
Theorem C50_no_position_refuted : exists p, pt_content p = Some (lit "ab") /\ exists p', parts_of (pack (one_part p)) FmtNumber (lit "N") = Some [p'] /\ pt_content p' = None.
Proof. exists (Part PNumber [] None (Some (lit "ab"))). split; [reflexivity|]. eexists. split; vm_compute; reflexivity. Qed.

Definition one_header (h : hfoot) : stylebook := one FMasterPage (lit "M") (BMaster (MBody [] None None h hf_default hf_default hf_default hf_default hf_default)).
Definition header_of (r : res stylebook) (k : str) : option hfoot :=
  match r with Ok b => match found b FMasterPage k with Some (Named _ (BMaster x)) => Some (mp_header x) | _ => None end | _ => None end.
(** The attributes of a paragraph in a header are lost; *)
Theorem C50_header_style_refuted : exists h, hf_content h = [XTag (lit "text:p") [(lit "text:style-name", lit "P1")] [XText (lit "page")]]
  /\ exists h', header_of (pack (one_header h)) (lit "M") = Some h' /\ hf_content h' = [text_p (lit "page")].
Proof. exists (HF true [] [] [] [XTag (lit "text:p") [(lit "text:style-name", lit "P1")] [XText (lit "page")]]). split; [reflexivity|]. eexists. split; vm_compute; reflexivity. Qed.
(** a text that is directly in a region makes the file unreadable; *)
Theorem C50_region_refuted : exists h, hf_left h = [XText (lit "page")] /\ pack (one_header h) = Err.
Proof. exists (HF true [XText (lit "page")] [] [] []). split; [reflexivity|]. vm_compute. reflexivity. Qed.
(** in a flat file, a paragraph in a region gets a line break; *)
Theorem C50_region_flat_refuted : exists h, hf_left h = [XTag (lit "text:p") [] [XTag (lit "text:span") [] [XText (lit "page")]]]
  /\ exists h', header_of (flat (one_header h)) (lit "M") = Some h' /\ map norm (hf_left h') <> map norm (hf_left h).
Proof. exists (HF true [XTag (lit "text:p") [] [XTag (lit "text:span") [] [XText (lit "page")]]] [] [] []). split; [reflexivity|]. eexists. split; [vm_compute; reflexivity|]. vm_compute. discriminate. Qed.
(** a header that is shown but empty is read as hidden. *)
Theorem C50_empty_header_refuted : exists h h', hf_display h = true /\ header_of (pack (one_header h)) (lit "M") = Some h' /\ hf_display h' = false.
Proof. exists hf_new. eexists. split; [reflexivity|]. split; vm_compute; reflexivity. Qed.

Print Assumptions C45_one_place.
Print Assumptions C45_styles_xml.
Print Assumptions C45_content_xml.
Print Assumptions C45_flat_xml.
Print Assumptions C45_ods.
Print Assumptions C45_fods.
Print Assumptions C45_written.
Print Assumptions C45_content_named_refuted.
Print Assumptions C45_flat_first_refuted.
Print Assumptions C45_default_format_refuted.
Print Assumptions C45_default_lost_refuted.
Print Assumptions C45_fonts_refuted.
Print Assumptions C45_page_twice_refuted.
Print Assumptions C45_tabs_refuted.
Print Assumptions C50_ods.
Print Assumptions C50_fods.
Print Assumptions C50_embedded_refuted.
Print Assumptions C50_embedded_flat_refuted.
Print Assumptions C50_no_position_refuted.
Print Assumptions C50_header_style_refuted.
Print Assumptions C50_region_refuted.
Print Assumptions C50_region_flat_refuted.
Print Assumptions C50_empty_header_refuted.
