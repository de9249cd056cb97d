(** C63: column widths and row heights survive writing and reading. *)
From Verif Require Import Base NumModel EnumModel BookModel StyleModel FmtModel SetModel GetModel SizeModel FmtSpec Lib NumProofs FmtProofs SetProofs BookProps SetProps.
From Coq Require Import Lia.

(** ** What ought to be read *)

(** The attribute of a style that leaves the size to the application, and the style of that name. *)
Definition optimal_attr (x : axis) : str := match x with Cols => lit "style:use-optimal-column-width" | Rows => lit "style:use-optimal-row-height" end.
Definition attrs_of (x : axis) (b : book attrs) (n : str) : option attrs :=
  match am_get n (bk_styles b (match x with Cols => FCol | Rows => FRow end)) with Some s => Some (nm_body s) | None => None end.
Definition optimal (x : axis) (b : book attrs) (n : str) : Prop := exists a, attrs_of x b n = Some a /\ value_of (optimal_attr x) a = Some (lit "true").
(** The styles the headers name are there, no attribute is there twice, and numbers are written as numbers. *)
Definition all_there (x : axis) (hs : list header) (b : book attrs) : Prop := forall h n, In h hs -> hd_style h = Some n -> attrs_of x b n <> None.
Definition no_doubles (x : axis) (b : book attrs) : Prop := forall n a, attrs_of x b n = Some a -> NoDup (map fst a).
Definition numbers_fine (hs : list header) : Prop := forall h v u, In h hs -> hd_size h = Len v u -> float_text v = true.
(** The sizes of all headers with the same style, in order. *)
Definition sizes (n : str) (hs : list header) : list length_ :=
  flat_map (fun h => match hd_style h with Some m => if str_eqb m n then [hd_size h] else [] | None => [] end) hs.

(** ** Lemmas *)

Definition opt_of (x : axis) (a : attrs) : res bool := match x with Cols => get_use_optimal_col_width a | Rows => get_use_optimal_row_height a end.
Definition size_of (x : axis) (a : attrs) : res length_ := match x with Cols => get_col_width a | Rows => get_row_height a end.
Lemma style_size_eq x a : style_size x a = let* o := opt_of x a in if o then Ok LDefault else size_of x a.
Proof. destruct x; reflexivity. Qed.
Lemma write_default x a a' : NoDup (map fst a) -> write_size x LDefault a = Ok a' -> NoDup (map fst a') /\ opt_of x a' = Ok true.
Proof.
  intros N. unfold write_size. cbn [is_default]. destruct x; cbn [set_optimal set_size run bind]; unfold put; cbn [bind]; intros H; apply ok_inj in H; subst a'.
  - split; [apply del_keys, put_keys, N|]. cbn [opt_of]. unfold get_use_optimal_col_width. rewrite get_value, value_del_other by reflexivity.
    rewrite value_put, str_eqb_refl. reflexivity.
  - split; [apply put_keys, put_keys, N|]. cbn [opt_of]. unfold get_use_optimal_row_height. rewrite get_value, value_put.
    replace (str_eqb (lit "style:row-height") (lit "style:use-optimal-row-height")) with false by reflexivity. rewrite value_put, str_eqb_refl. reflexivity.
Qed.
Lemma write_given x v u a a' : NoDup (map fst a) -> float_text v = true -> write_size x (Len v u) a = Ok a' ->
  NoDup (map fst a') /\ opt_of x a' = opt_of x a /\ size_of x a' = Ok (Len v u).
Proof.
  intros N F. unfold write_size. cbn [is_default]. intros H. assert (H' := H). destruct x; cbn [set_size run] in H; unfold put in H; apply ok_inj in H.
  - split; [subst a'; apply put_keys, N|]. split.
    + subst a'. cbn [opt_of]. unfold get_use_optimal_col_width. rewrite !get_value, value_put. reflexivity.
    + apply (C62_col_width (Len v u) a a' N); [intros v' u' E; injection E as <- <-; exact F|exact H'].
  - split; [subst a'; apply put_keys, N|]. split.
    + subst a'. cbn [opt_of]. unfold get_use_optimal_row_height. rewrite !get_value, value_put. reflexivity.
    + apply (C62_row_height v u a a' F H').
Qed.
Definition comb (o : res bool) (r : res length_) (ss : list length_) : res length_ :=
  if existsb is_default ss then Ok LDefault else match ss with [] => r | _ => let* o := o in if o then Ok LDefault else Ok (last ss LDefault) end.
Lemma comb_cons x a a1 s ss : NoDup (map fst a) -> (forall v u, s = Len v u -> float_text v = true) -> write_size x s a = Ok a1 ->
  comb (opt_of x a1) (style_size x a1) ss = comb (opt_of x a) (style_size x a) (s :: ss).
Proof.
  intros N F W. rewrite style_size_eq. destruct s as [|v u].
  - destruct (write_default x a a1 N W) as (_ & ->). unfold comb. cbn [existsb is_default orb bind]. destruct (existsb is_default ss); [reflexivity|]. destruct ss; reflexivity.
  - destruct (write_given x v u a a1 N (F v u eq_refl) W) as (_ & -> & ->). unfold comb. cbn [existsb is_default orb]. destruct (existsb is_default ss); [reflexivity|].
    destruct ss as [|t ss]; reflexivity.
Qed.
Lemma attrs_style x b n : attrs_of x b n = option_map nm_body (style (family_of x) n b).
Proof. unfold attrs_of, style. destruct x; cbn [family_of]; destruct (am_get n _); reflexivity. Qed.
Lemma change_spec x n l b b1 : no_doubles x b -> (forall v u, l = Len v u -> float_text v = true) -> change_size x n l b = Ok b1 ->
  no_doubles x b1 /\ (forall k, k <> n -> attrs_of x b1 k = attrs_of x b k) /\
  match attrs_of x b n with
  | Some a => exists a1, attrs_of x b1 n = Some a1 /\ write_size x l a = Ok a1
  | None => attrs_of x b1 n = None
  end.
Proof.
  intros D F H. unfold change_size in H. rewrite !attrs_style. destruct (style (family_of x) n b) as [s|] eqn:S.
  - apply bind_ok in H as (a1 & W & H). apply ok_inj in H. subst b1.
    destruct (C32_others attrs (family_of x) n b (fun s => Named (nm_name s) a1)) as (_ & C & O). rewrite S in C. cbn [option_map] in C.
    assert (forall k, k <> n -> attrs_of x (change_style (family_of x) n (fun s => Named (nm_name s) a1) b) k = attrs_of x b k) as O'.
    { intros k K. rewrite !attrs_style. destruct (O (family_of x) k) as (_ & E); [intros (_ & E); exact (K E)|]. rewrite E. reflexivity. }
    split; [|split; [exact O'|]].
    + intros k a A. destruct (list_eq_dec N.eq_dec k n) as [->|K]; [|rewrite (O' k K) in A; exact (D k a A)].
      rewrite attrs_style, C in A. injection A as <-. assert (attrs_of x b n = Some (nm_body s)) as B by (rewrite attrs_style, S; reflexivity).
      destruct l as [|v u]; [exact (proj1 (write_default x _ _ (D n _ B) W))|exact (proj1 (write_given x v u _ _ (D n _ B) (F v u eq_refl) W))].
    + cbn [option_map]. rewrite C. exists a1. split; [reflexivity|exact W].
  - apply ok_inj in H. subst b1. rewrite S. split; [exact D|]. split; reflexivity.
Qed.
Lemma add_spec x b b1 n : no_doubles x b -> add_style (family_of x) (Named [] []) b = Ok (b1, n) ->
  no_doubles x b1 /\ attrs_of x b n = None /\ attrs_of x b1 n = Some [] /\ forall k, k <> n -> attrs_of x b1 k = attrs_of x b k.
Proof.
  intros D H. destruct (C32_add attrs _ _ _ _ _ H) as (A & _ & _ & B & C). destruct (A eq_refl) as (A' & _). cbn [nm_body] in B.
  assert (forall k, k <> n -> attrs_of x b1 k = attrs_of x b k) as O.
  { intros k K. rewrite !attrs_style. rewrite (C (family_of x) k); [reflexivity|]. intros (_ & E). exact (K E). }
  split; [|split; [rewrite attrs_style, A'; reflexivity|split; [rewrite attrs_style, B; reflexivity|exact O]]].
  intros k a E. destruct (list_eq_dec N.eq_dec k n) as [->|K]; [|rewrite (O k K) in E; exact (D k a E)].
  rewrite attrs_style, B in E. injection E as <-. constructor.
Qed.
Lemma both_impl {A B} (P Q : A -> B -> Prop) l l' : (forall a b, P a b -> Q a b) -> Forall2 P l l' -> Forall2 Q l l'.
Proof. intros H F. induction F; constructor; auto. Qed.
Lemma both_in {A B} (P : A -> B -> Prop) l l' o : Forall2 P l l' -> In o l' -> exists h, In h l /\ P h o.
Proof.
  intros F. induction F as [|h o' l l' Q F IH]; intros I; [destruct I|]. destruct I as [<-|I]; [exists h; split; [left; reflexivity|exact Q]|].
  destruct (IH I) as (h' & J & R). exists h'. split; [right; exact J|exact R].
Qed.
Definition given (x : axis) (b b' : book attrs) (h h' : header) : Prop :=
  hd_size h' = hd_size h /\
  match hd_style h with
  | Some n => hd_style h' = Some n
  | None => if is_default (hd_size h) then hd_style h' = None
            else exists n a, hd_style h' = Some n /\ attrs_of x b n = None /\ attrs_of x b' n = Some a /\ style_size x a = Ok (hd_size h)
  end.
Lemma sizes_other n hs b x : all_there x hs b -> attrs_of x b n = None -> sizes n hs = [].
Proof.
  intros K E. induction hs as [|h r IH]; [reflexivity|]. unfold sizes. cbn [flat_map]. fold (sizes n r). rewrite IH by (intros h' m I; apply K; right; exact I).
  destruct (hd_style h) as [m|] eqn:S; [|reflexivity]. destruct (str_eqb m n) eqn:M; [|reflexivity]. apply str_eqb_eq in M. subst m.
  exfalso. exact (K h n (or_introl eq_refl) S E).
Qed.
Lemma sync_spec x hs : forall b b' hs', no_doubles x b -> all_there x hs b -> numbers_fine hs -> sync_headers x hs b = Ok (b', hs') ->
  no_doubles x b' /\ Forall2 (given x b b') hs hs' /\
  forall n a, attrs_of x b n = Some a -> exists a', attrs_of x b' n = Some a' /\ style_size x a' = comb (opt_of x a) (style_size x a) (sizes n hs).
Proof.
  induction hs as [|h r IH]; intros b b' hs' D K F H.
  - cbn [sync_headers] in H. apply ok_inj in H. injection H as <- <-. split; [exact D|]. split; [constructor|]. intros n a A. exists a. split; [exact A|reflexivity].
  - cbn [sync_headers] in H. apply bind_ok in H as ((b1 & h1) & H1 & H). apply bind_ok in H as ((b2 & r1) & H2 & H). apply ok_inj in H. injection H as -> <-.
    assert (numbers_fine r) as Fr by (intros h' v u I; apply F; right; exact I).
    assert (all_there x r b) as Kr by (intros h' n I; apply K; right; exact I).
    assert (forall v u, hd_size h = Len v u -> float_text v = true) as Fh by (intros v u; apply F; left; reflexivity).
    unfold sync_header in H1. destruct (hd_style h) as [n|] eqn:S.
    + rewrite andb_false_r in H1. cbn [bind] in H1. rewrite S in H1. apply bind_ok in H1 as (bb & H1 & E). apply ok_inj in E. injection E as <- <-.
      destruct (change_spec x n (hd_size h) b bb D Fh H1) as (D1 & O & C).
      destruct (attrs_of x b n) as [a|] eqn:A; [|exfalso; exact (K h n (or_introl eq_refl) S A)]. destruct C as (a1 & A1 & W).
      assert (all_there x r bb) as K1.
      { intros h' m I E. destruct (list_eq_dec N.eq_dec m n) as [->|M]; [congruence|]. rewrite (O m M). exact (Kr h' m I E). }
      destruct (IH bb b' r1 D1 K1 Fr H2) as (D2 & G & R). split; [exact D2|]. split.
      * constructor; [split; [reflexivity|]; rewrite S; reflexivity|]. revert G. apply both_impl. intros h0 h0' (G1 & G2). split; [exact G1|].
        destruct (hd_style h0); [exact G2|]. destruct (is_default (hd_size h0)); [exact G2|]. destruct G2 as (m & a0 & M1 & M2 & M3). exists m, a0. split; [exact M1|].
        split; [|exact M3]. destruct (list_eq_dec N.eq_dec m n) as [->|M]; [congruence|]. rewrite <- (O m M). exact M2.
      * intros m a0 A0. unfold sizes. cbn [flat_map]. rewrite S. fold (sizes m r). destruct (str_eqb n m) eqn:M.
        -- apply str_eqb_eq in M. subst m. assert (a0 = a) as -> by congruence. destruct (R n a1 A1) as (a' & A' & E). exists a'. split; [exact A'|]. rewrite E.
           apply comb_cons; [exact (D n a A)|exact Fh|exact W].
        -- cbn [app]. apply R. rewrite O; [exact A0|]. intros ->. rewrite str_eqb_refl in M. discriminate M.
    + destruct (is_default (hd_size h)) eqn:Z; cbn [negb andb] in H1.
      * cbn [bind] in H1. rewrite S in H1. cbn [bind] in H1. apply ok_inj in H1. injection H1 as <- <-.
        destruct (IH b b' r1 D Kr Fr H2) as (D2 & G & R). split; [exact D2|]. split.
        -- constructor; [|exact G]. split; [reflexivity|]. rewrite S, Z. reflexivity.
        -- intros m a0 A0. unfold sizes. cbn [flat_map]. rewrite S. cbn [app]. exact (R m a0 A0).
      * apply bind_ok in H1 as ((b0 & h0) & H0 & H1). apply bind_ok in H0 as ((bn & n) & Hn & E). apply ok_inj in E. injection E as <- <-.
        cbn [hd_style hd_size] in H1. apply bind_ok in H1 as (bb & H1 & E). apply ok_inj in E. injection E as <- <-.
        destruct (add_spec x b bn n D Hn) as (Dn & An & Bn & On).
        destruct (change_spec x n (hd_size h) bn bb Dn Fh H1) as (D1 & O & C). rewrite Bn in C. destruct C as (a1 & A1 & W).
        assert (forall m, m <> n -> attrs_of x bb m = attrs_of x b m) as OO by (intros m M; rewrite (O m M); apply On; exact M).
        assert (all_there x r bb) as K1.
        { intros h' m I E. destruct (list_eq_dec N.eq_dec m n) as [->|M]; [congruence|]. rewrite (OO m M). exact (Kr h' m I E). }
        destruct (IH bb b' r1 D1 K1 Fr H2) as (D2 & G & R). split; [exact D2|]. split.
        -- constructor.
           ++ split; [reflexivity|]. rewrite S, Z. destruct (R n a1 A1) as (a' & A' & E). exists n, a'. split; [reflexivity|]. split; [exact An|]. split; [exact A'|].
              rewrite E. rewrite (sizes_other n r b x Kr An). unfold comb. cbn [existsb]. destruct (hd_size h) as [|v u]; [discriminate Z|].
              rewrite style_size_eq. destruct (write_given x v u [] a1 (NoDup_nil _) (Fh v u eq_refl) W) as (_ & -> & ->). destruct x; reflexivity.
           ++ revert G. apply both_impl. intros h0 h0' (G1 & G2). split; [exact G1|].
              destruct (hd_style h0); [exact G2|]. destruct (is_default (hd_size h0)); [exact G2|]. destruct G2 as (m & a0 & M1 & M2 & M3). exists m, a0. split; [exact M1|].
              split; [|exact M3]. destruct (list_eq_dec N.eq_dec m n) as [->|M]; [congruence|]. rewrite <- (OO m M). exact M2.
        -- intros m a0 A0. unfold sizes. cbn [flat_map]. rewrite S. cbn [app]. apply R. rewrite OO; [exact A0|]. intros ->. congruence.
Qed.
Lemma derive_spec x b hs : forall out, derive_headers x b (map (fun h => Header (hd_style h) LDefault) hs) = Ok out ->
  Forall2 (fun h o => hd_style o = hd_style h /\
    match hd_style h with
    | Some n => match attrs_of x b n with Some a => style_size x a = Ok (hd_size o) | None => hd_size o = LDefault end
    | None => hd_size o = LDefault
    end) hs out.
Proof.
  induction hs as [|h r IH]; intros out H; cbn [map derive_headers] in H; [apply ok_inj in H; subst out; constructor|].
  apply bind_ok in H as (o & H1 & H). apply bind_ok in H as (r' & H2 & H). apply ok_inj in H. subst out. constructor; [|exact (IH r' H2)].
  unfold derive_header in H1. cbn [hd_style] in H1. destruct (hd_style h) as [n|] eqn:S; [|apply ok_inj in H1; subst o; auto].
  rewrite attrs_style. destruct (style (family_of x) n b) as [s|]; cbn [option_map].
  - apply bind_ok in H1 as (l & L & H1). apply ok_inj in H1. subst o. auto.
  - apply ok_inj in H1. subst o. auto.
Qed.
Lemma optimal_of x b n a : attrs_of x b n = Some a -> opt_of x a = Ok true -> optimal x b n.
Proof.
  intros A O. exists a. split; [exact A|]. destruct x; cbn [opt_of optimal_attr] in O |- *;
    [unfold get_use_optimal_col_width in O|unfold get_use_optimal_row_height in O]; rewrite get_value in O; destruct (value_of _ a) as [t|]; try discriminate O;
    unfold parse_def, parse_opt, parse_bool in O; destruct (str_eqb t (lit "true")) eqn:T; try (apply str_eqb_eq in T; subst t; reflexivity);
    destruct (str_eqb t (lit "false")); discriminate O.
Qed.
Lemma of_optimal x b n a : attrs_of x b n = Some a -> optimal x b n -> opt_of x a = Ok true.
Proof.
  intros A (a' & A' & V). assert (a' = a) as -> by congruence. destruct x; cbn [opt_of optimal_attr] in V |- *;
    [unfold get_use_optimal_col_width|unfold get_use_optimal_row_height]; rewrite get_value, V; reflexivity.
Qed.

(** ** C63 *)

(** What is read of each header: without a style its size; with a style that is used for a default size or leaves the size to the application
    the default; and otherwise the size of the last header with that style. *)
Definition last_size (n : str) (hs : list header) (l : length_) : Prop :=
  exists before h after, hs = before ++ h :: after /\ hd_style h = Some n /\ hd_size h = l /\ forall h', In h' after -> hd_style h' <> Some n.
Definition defaulted (x : axis) (b : book attrs) (n : str) (hs : list header) : Prop :=
  optimal x b n \/ exists h, In h hs /\ hd_style h = Some n /\ hd_size h = LDefault.
Definition expected (x : axis) (b : book attrs) (hs : list header) (h : header) (l : length_) : Prop :=
  match hd_style h with
  | None => l = hd_size h
  | Some n => (defaulted x b n hs /\ l = LDefault) \/ (~ defaulted x b n hs /\ last_size n hs l)
  end.
Lemma sizes_default n hs : existsb is_default (sizes n hs) = true -> exists h, In h hs /\ hd_style h = Some n /\ hd_size h = LDefault.
Proof.
  intros E. apply existsb_exists in E as (l & I & L). apply in_flat_map in I as (h & I & J). exists h. split; [exact I|].
  destruct (hd_style h) as [m|]; [|destruct J]. destruct (str_eqb m n) eqn:M; [|destruct J]. destruct J as [<-|[]]. apply str_eqb_eq in M. subst m.
  split; [reflexivity|]. destruct (hd_size h); [reflexivity|discriminate L].
Qed.
Lemma default_sizes n hs h : In h hs -> hd_style h = Some n -> In (hd_size h) (sizes n hs).
Proof. intros I S. apply in_flat_map. exists h. split; [exact I|]. rewrite S, str_eqb_refl. left. reflexivity. Qed.
Lemma last_sizes n hs : sizes n hs <> [] -> last_size n hs (last (sizes n hs) LDefault).
Proof.
  induction hs as [|h r IH]; intros E; [destruct (E eq_refl)|]. unfold sizes in E |- *. cbn [flat_map] in E |- *. fold (sizes n r) in E |- *.
  destruct (sizes n r) as [|t q] eqn:R.
  - rewrite app_nil_r in E |- *. exists [], h, r. split; [reflexivity|]. destruct (hd_style h) as [m|]; [|destruct (E eq_refl)].
    destruct (str_eqb m n) eqn:M; [|destruct (E eq_refl)]. apply str_eqb_eq in M. subst m. split; [reflexivity|]. split; [reflexivity|].
    intros h' I S. apply (default_sizes n r h' I) in S. rewrite R in S. destruct S.
  - destruct IH as (be & h0 & af & -> & S & L & N); [discriminate|]. exists (h :: be), h0, af. split; [reflexivity|]. split; [exact S|]. split; [|exact N].
    rewrite L. destruct (hd_style h) as [m|]; [|reflexivity]. destruct (str_eqb m n); reflexivity.
Qed.
Theorem C63_exact x hs b b' out : no_doubles x b -> all_there x hs b -> numbers_fine hs -> through x hs b = Ok (b', out) ->
  Forall2 (fun h o => expected x b hs h (hd_size o) /\ (forall n, hd_style h = Some n -> hd_style o = Some n)) hs out.
Proof.
  intros D K F H. unfold through in H. apply bind_ok in H as ((b1 & hs1) & H1 & H). apply bind_ok in H as (o1 & H2 & H). apply ok_inj in H. injection H as <- <-.
  destruct (sync_spec x hs b b1 hs1 D K F H1) as (_ & G & R). assert (T := derive_spec x b1 hs1 o1 H2).
  assert (forall hs0 hs1 o1, (forall h, In h hs0 -> In h hs) -> Forall2 (given x b b1) hs0 hs1 -> Forall2 (fun h o => hd_style o = hd_style h /\
    match hd_style h with
    | Some n => match attrs_of x b1 n with Some a => style_size x a = Ok (hd_size o) | None => hd_size o = LDefault end
    | None => hd_size o = LDefault
    end) hs1 o1 -> Forall2 (fun h o => expected x b hs h (hd_size o) /\ (forall n, hd_style h = Some n -> hd_style o = Some n)) hs0 o1) as X; [|apply (X hs hs1 o1); auto].
  clear - R K D. intros hs0 hs1 o1 I G. revert o1. induction G as [|h h1 r r1 (G1 & G2) G IH]; intros o1 T; inversion T as [|? o ? o2 (T1 & T2) T']; subst; constructor;
    [|apply IH; [intros h' J; apply I; right; exact J|exact T']].
  unfold expected. destruct (hd_style h) as [n|] eqn:S.
  - rewrite G2 in T1, T2. split; [|intros m E; injection E as <-; exact T1].
    destruct (attrs_of x b n) as [a|] eqn:A; [|exfalso; exact (K h n (I h (or_introl eq_refl)) S A)].
    destruct (R n a A) as (a' & A' & E). rewrite A', E in T2. unfold comb in T2. destruct (existsb is_default (sizes n hs)) eqn:Z.
    + left. split; [|apply ok_inj in T2; symmetry; exact T2]. right. apply sizes_default. exact Z.
    + assert (In (hd_size h) (sizes n hs)) as J by (apply default_sizes; [apply I; left; reflexivity|exact S]).
      assert (L := last_sizes n hs). destruct (sizes n hs) as [|t q] eqn:Q; [destruct J|]. apply bind_ok in T2 as (o0 & O & T2). destruct o0; apply ok_inj in T2.
      * left. split; [|symmetry; exact T2]. left. exact (optimal_of x b n a A O).
      * right. split; [|rewrite <- T2; apply L; discriminate]. intros [P|(h' & I' & S' & L')].
        -- rewrite (of_optimal x b n a A P) in O. discriminate O.
        -- apply (default_sizes n hs h' I') in S'. rewrite Q, L' in S'. assert (existsb is_default (t :: q) = true) as B; [|congruence].
           apply existsb_exists. exists LDefault. split; [exact S'|reflexivity].
  - split; [|intros m E; discriminate E]. destruct (is_default (hd_size h)) eqn:Z.
    + rewrite G2 in T2. rewrite T2. destruct (hd_size h); [reflexivity|discriminate Z].
    + destruct G2 as (n & a & G2 & _ & A & E). rewrite G2, A, E in T2. apply ok_inj in T2. symmetry. exact T2.
Qed.

(** So all sizes survive if headers with the same style agree and a style that leaves the size to the application is not used for a size. *)
Definition agree (x : axis) (hs : list header) (b : book attrs) : Prop :=
  (forall h h' n, In h hs -> In h' hs -> hd_style h = Some n -> hd_style h' = Some n -> hd_size h = hd_size h') /\
  (forall h n, In h hs -> hd_style h = Some n -> hd_size h <> LDefault -> ~ optimal x b n).
Theorem C63_survives x hs b b' out : no_doubles x b -> all_there x hs b -> numbers_fine hs -> agree x hs b -> through x hs b = Ok (b', out) ->
  map hd_size out = map hd_size hs.
Proof.
  intros D K F (G1 & G2) H. assert (E := C63_exact x hs b b' out D K F H).
  assert (forall l o, (forall h, In h l -> In h hs) -> Forall2 (fun h o => expected x b hs h (hd_size o) /\ (forall n, hd_style h = Some n -> hd_style o = Some n)) l o ->
    map hd_size o = map hd_size l) as X; [|apply X; [auto|exact E]].
  intros l o I P. induction P as [|h o' l o (P & _) Q IH]; [reflexivity|]. cbn [map]. f_equal; [|apply IH; intros h' J; apply I; right; exact J].
  assert (In h hs) as J by (apply I; left; reflexivity). unfold expected in P. destruct (hd_style h) as [n|] eqn:S; [|exact P]. destruct P as [(P & ->)|(_ & P)].
  - destruct (hd_size h) as [|v u] eqn:L; [reflexivity|]. exfalso. destruct P as [P|(h' & J' & S' & L')].
    + apply (G2 h n J S); [rewrite L; discriminate|exact P].
    + rewrite (G1 h h' n J J' S S') in L. congruence.
  - destruct P as (be & h' & af & -> & S' & <- & _). apply (G1 h' h n); [apply in_or_app; right; left; reflexivity|exact J|exact S'|exact S].
Qed.
(** In particular without styles of one's own. *)
Theorem C63_plain x hs b b' out : no_doubles x b -> numbers_fine hs -> (forall h, In h hs -> hd_style h = None) -> through x hs b = Ok (b', out) ->
  map hd_size out = map hd_size hs.
Proof.
  intros D F P. apply C63_survives; [exact D| |exact F|].
  - intros h n I S. rewrite (P h I) in S. discriminate S.
  - split.
    + intros h h' n I _ S. rewrite (P h I) in S. discriminate S.
    + intros h n I S. rewrite (P h I) in S. discriminate S.
Qed.
(** A size that cannot come back is lost: another one for a column that is read with the optimal width stays optimal. *)
Theorem C63_resized x hs b b' out h n l : no_doubles x b -> all_there x hs b -> numbers_fine hs -> In h hs -> hd_style h = Some n -> optimal x b n ->
  through x hs b = Ok (b', out) -> l = hd_size h -> l <> LDefault -> map hd_size out <> map hd_size hs.
Proof.
  intros D K F I S O H -> L E. assert (P := C63_exact x hs b b' out D K F H).
  assert (forall l o, Forall2 (fun h o => expected x b hs h (hd_size o) /\ (forall n, hd_style h = Some n -> hd_style o = Some n)) l o -> In h l ->
    map hd_size o = map hd_size l -> hd_size h = LDefault) as X; [|exact (L (X hs out P I E))].
  clear - S O. intros l o P. induction P as [|h0 o' l o (P & _) Q IH]; intros I E; [destruct I|]. cbn [map] in E. injection E as E1 E2.
  destruct I as [->|I]; [|exact (IH I E2)]. unfold expected in P. rewrite S in P. destruct P as [(_ & P)|(N & _)]; [congruence|].
  exfalso. apply N. left. exact O.
Qed.
(** What was written can be read if the styles say true or false. *)
Theorem C63_readable x hs b b1 hs1 : no_doubles x b -> all_there x hs b -> numbers_fine hs -> sync_headers x hs b = Ok (b1, hs1) ->
  (forall h n a, In h hs -> hd_style h = Some n -> attrs_of x b n = Some a -> value_of (optimal_attr x) a = None \/ exists v, value_of (optimal_attr x) a = Some (show_bool v)) ->
  exists out, through x hs b = Ok (b1, out).
Proof.
  intros D K F H V. destruct (sync_spec x hs b b1 hs1 D K F H) as (_ & G & R).
  assert (exists out, derive_headers x b1 (map (fun h => Header (hd_style h) LDefault) hs1) = Ok out) as (out & E).
  - assert (forall l l1, (forall h, In h l -> In h hs) -> Forall2 (given x b b1) l l1 -> exists out, derive_headers x b1 (map (fun h => Header (hd_style h) LDefault) l1) = Ok out) as X;
      [|apply (X hs hs1); auto].
    intros l l1 I P. induction P as [|h h1 l l1 (P1 & P2) P IH]; [exists []; reflexivity|]. destruct IH as (out & E); [intros h' J; apply I; right; exact J|].
    assert (exists o, derive_header x b1 (Header (hd_style h1) LDefault) = Ok o) as (o & O); [|exists (o :: out); cbn [map derive_headers]; rewrite O, E; reflexivity].
    unfold derive_header. cbn [hd_style]. destruct (hd_style h1) as [n|] eqn:S1; [|eexists; reflexivity].
    assert (exists l, attrs_of x b1 n = None \/ exists a, attrs_of x b1 n = Some a /\ style_size x a = Ok l) as (l0 & Q).
    + destruct (hd_style h) as [m|] eqn:S.
      * assert (m = n) as -> by congruence. destruct (attrs_of x b n) as [a|] eqn:A; [|exfalso; exact (K h n (I h (or_introl eq_refl)) S A)].
        destruct (R n a A) as (a' & A' & Z). assert (In (hd_size h) (sizes n hs)) as J by (apply default_sizes; [apply I; left; reflexivity|exact S]).
        assert (exists o, opt_of x a = Ok o) as (o & O).
        { destruct (V h n a (I h (or_introl eq_refl)) S A) as [W|(v & W)]; destruct x; cbn [opt_of optimal_attr] in W |- *;
            unfold get_use_optimal_col_width, get_use_optimal_row_height; rewrite get_value, W; first [exists false; reflexivity | destruct v; eexists; reflexivity]. }
        unfold comb in Z. rewrite O in Z. cbn [bind] in Z. destruct (existsb is_default (sizes n hs)); [exists LDefault; right; exists a'; auto|].
        destruct (sizes n hs) as [|t q]; [destruct J|]. exists (if o then LDefault else last (t :: q) LDefault). right. exists a'. split; [exact A'|]. rewrite Z. destruct o; reflexivity.
      * destruct (is_default (hd_size h)); [congruence|]. destruct P2 as (m & a & M1 & _ & M2 & M3). assert (m = n) as -> by congruence. exists (hd_size h). right. exists a. auto.
    + rewrite attrs_style in Q. destruct (style (family_of x) n b1) as [s|]; [|eexists; reflexivity]. destruct Q as [Q|(a & Q1 & Q2)]; [discriminate Q|].
      injection Q1 as <-. rewrite Q2. eexists. reflexivity.
  - exists out. unfold through. rewrite H. cbn [bind]. rewrite E. reflexivity.
Qed.
(** Reading and writing once more changes no size. *)
Theorem C63_stable x hs b b' out b2 out2 : no_doubles x b -> all_there x hs b -> numbers_fine hs -> through x hs b = Ok (b', out) -> through x out b' = Ok (b2, out2) ->
  map hd_size out2 = map hd_size out.
Proof.
  intros D K F H. assert (E := C63_exact x hs b b' out D K F H). unfold through in H. apply bind_ok in H as ((b1 & hs1) & H1 & H). apply bind_ok in H as (o1 & H2 & H).
  apply ok_inj in H. injection H as -> ->. destruct (sync_spec x hs b b' hs1 D K F H1) as (D1 & G & R). assert (T := derive_spec x b' hs1 out H2).
  assert (forall o, In o out -> exists h1, In h1 hs1 /\ hd_style o = hd_style h1 /\
    match hd_style h1 with
    | Some n => match attrs_of x b' n with Some a => style_size x a = Ok (hd_size o) | None => hd_size o = LDefault end
    | None => hd_size o = LDefault end) as TO.
  { intros o I. exact (both_in _ _ _ _ T I). }
  assert (forall h1 n, In h1 hs1 -> hd_style h1 = Some n -> attrs_of x b' n <> None) as KO.
  { intros h1 n I S. assert (exists h, In h hs /\ given x b b' h h1) as (h & J & P & Q).
    { exact (both_in _ _ _ _ G I). }
    destruct (hd_style h) as [m|] eqn:Sh.
    - assert (m = n) as -> by congruence. destruct (attrs_of x b n) as [a|] eqn:A; [|exfalso; exact (K h n J Sh A)]. destruct (R n a A) as (a' & A' & _). congruence.
    - destruct (is_default (hd_size h)); [congruence|]. destruct Q as (m & a & M & _ & A & _). assert (m = n) as -> by congruence. congruence. }
  apply C63_survives; [exact D1| | |split].
  - intros o n I S. destruct (TO o I) as (h1 & J & S1 & _). apply (KO h1 n J). congruence.
  - intros o v u I L. assert (exists h, In h hs /\ expected x b hs h (hd_size o)) as (h & J & P).
    { destruct (both_in _ _ _ _ E I) as (h & J & P & _). exists h. auto. }
    unfold expected in P. destruct (hd_style h) as [n|]; [|apply (F h v u J); congruence]. destruct P as [(_ & P)|(_ & P)]; [congruence|].
    destruct P as (be & h' & af & -> & _ & P & _). apply (F h' v u); [apply in_or_app; right; left; reflexivity|congruence].
  - intros o o' n I I' S S'. destruct (TO o I) as (h1 & J & S1 & P). destruct (TO o' I') as (h2 & J' & S2 & P'). rewrite <- S1, S in P. rewrite <- S2, S' in P'.
    destruct (attrs_of x b' n) as [a|]; congruence.
  - intros o n I S L O. destruct (TO o I) as (h1 & J & S1 & P). rewrite <- S1, S in P. destruct (attrs_of x b' n) as [a|] eqn:A; [|exact (L P)].
    rewrite style_size_eq, (of_optimal x b' n a A O) in P. apply ok_inj in P. apply L. symmetry. exact P.
Qed.

(** ** What is lost *)

Definition styles_of (f : family) (l : list (str * attrs)) : book attrs :=
  Book [] (fun g => if family_eqb f g then map (fun p => (fst p, Named (fst p) (snd p))) l else []).
Definition cm (v : string) : length_ := Len (lit v) Cm.
Definition read_back (x : axis) (hs : list header) (b : book attrs) : option (list length_) := match through x hs b with Ok (_, o) => Some (map hd_size o) | _ => None end.
Definition style_after (x : axis) (hs : list header) (b : book attrs) (n : str) : option attrs := match through x hs b with Ok (b', _) => attrs_of x b' n | _ => None end.
Example C63_ex :
  let hs := [Header None (cm "5"); Header None LDefault; Header (Some (lit "co0")) (cm "2.5"); Header None (cm "5"); Header (Some (lit "co0")) (cm "2.5")] in
  let b := styles_of FCol [(lit "co0", [(lit "style:column-width", lit "1cm")])] in
  read_back Cols hs b = Some (map hd_size hs) /\ style_after Cols hs b (lit "co0") = Some [(lit "style:column-width", lit "2.5cm")] /\
  style_after Cols hs b (lit "co2") = Some [(lit "style:column-width", lit "5cm")] /\ agree Cols hs b.
Proof.
  split; [vm_compute; reflexivity|]. split; [vm_compute; reflexivity|]. split; [vm_compute; reflexivity|]. split.
  - intros h h' n I I' S S'. cbn [In] in I, I'. repeat (destruct I as [<-|I]); try contradiction; try discriminate S; repeat (destruct I' as [<-|I']); try contradiction; try discriminate S'; reflexivity.
  - intros h n I S _ (a & A & V). cbn [In] in I. repeat (destruct I as [<-|I]); try contradiction; try discriminate S; injection S as <-; vm_compute in A; injection A as <-; vm_compute in V; discriminate V.
Qed.
Example C63_rows_ex : read_back Rows [Header None (cm "1"); Header (Some (lit "r")) LDefault] (styles_of FRow [(lit "r", [(lit "style:row-height", lit "3cm")])]) = Some [cm "1"; LDefault].
Proof. vm_compute. reflexivity. Qed.
(** A column that was read with the optimal width gets a width: it comes back with the optimal width. *)
Theorem C63_resize_refuted : exists b h l, read_back Cols [h] b = Some [hd_size h] /\ l <> LDefault /\
  match through Cols [h] b with Ok (b', out) => read_back Cols (map (resize l) out) b' = Some [LDefault] | _ => False end.
Proof.
  exists (styles_of FCol [(lit "co1", [])]), (Header (Some (lit "co1")) LDefault), (cm "5"). split; [vm_compute; reflexivity|]. split; [discriminate|vm_compute; reflexivity].
Qed.
(** The width of a style that is given to a column is taken from the style. *)
Theorem C63_style_refuted : exists b n h, attrs_of Cols b n = Some [(lit "style:column-width", lit "5cm")] /\ h = restyle n (Header None LDefault) /\
  read_back Cols [h] b = Some [LDefault] /\ style_after Cols [h] b n = Some [(lit "style:use-optimal-column-width", lit "true")].
Proof.
  exists (styles_of FCol [(lit "wide", [(lit "style:column-width", lit "5cm")])]), (lit "wide"), (Header (Some (lit "wide")) LDefault).
  repeat split; vm_compute; reflexivity.
Qed.
(** Of two columns with one style both get the width of the second. *)
Theorem C63_shared_refuted : exists b n, attrs_of Cols b n <> None /\ read_back Cols [Header (Some n) (cm "1"); Header (Some n) (cm "2")] b = Some [cm "2"; cm "2"].
Proof. exists (styles_of FCol [(lit "c", [])]), (lit "c"). split; [vm_compute; discriminate|vm_compute; reflexivity]. Qed.
(** The width of a column whose style is not there is lost, and if a new style gets that name, so is that of another column. *)
Theorem C63_missing_refuted : read_back Cols [Header (Some (lit "c")) (cm "1")] (styles_of FCol []) = Some [LDefault] /\
  read_back Cols [Header None (cm "1"); Header (Some (lit "co0")) LDefault] (styles_of FCol []) = Some [LDefault; LDefault].
Proof. split; vm_compute; reflexivity. Qed.

Print Assumptions C63_exact.
Print Assumptions C63_survives.
Print Assumptions C63_plain.
Print Assumptions C63_resized.
Print Assumptions C63_readable.
Print Assumptions C63_stable.
Print Assumptions C63_resize_refuted.
Print Assumptions C63_style_refuted.
Print Assumptions C63_shared_refuted.
Print Assumptions C63_missing_refuted.
