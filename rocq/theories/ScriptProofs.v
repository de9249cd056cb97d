(** Lemmas about scripts and event listeners. *)
From Verif Require Import Base Lib EnumModel XmlModel XmlSpec XmlProofs CellIoModel CellIoProofs BookModel BookProps ScriptModel.

(** ** Documents whose end tags do not match *)

Fixpoint ends_match (st : list str) (cs : list call) : bool :=
  match cs with
  | [] => true
  | CElem n :: r | CElemIf true n :: r => ends_match (n :: st) r
  | CEnd n :: r | CEndIf true n :: r => match st with m :: st' => str_eqb n m && ends_match st' r | [] => false end
  | _ :: r => ends_match st r
  end.
Lemma nested_asked_eq lb cs : forall p st, nested st (asked esc_split lb p cs) = ends_match (open_names p st) cs.
Proof.
  assert (Hfin : forall p st r, nested st (finish lb p ++ r) = nested (open_names p st) r) by (intros [[[n a] []]|] st r; reflexivity).
  induction cs as [|c cs IH]; intros p st; [reflexivity|].
  assert (IH0 : forall st, nested st (asked esc_split lb None cs) = ends_match st cs) by (intros st'; apply (IH None)).
  destruct c; cbn [asked ends_match]; rewrite ?Hfin; cbn [app nested]; rewrite ?nested_esc; cbn [nested]; rewrite ?str_eqb_refl; cbn [andb]; auto.
  all: try solve [rewrite IH; reflexivity].
  all: try solve [rewrite IH; destruct has_content; reflexivity].
  all: try solve [rewrite IH; destruct p as [[[m a] e]|]; reflexivity].
  - destruct has_content; rewrite Hfin; [|apply IH0]. cbn [nested]. destruct (open_names p st) as [|m s']; [reflexivity|]. now rewrite IH0.
  - destruct (open_names p st) as [|m s']; [reflexivity|]. now rewrite IH0.
Qed.
Lemma read_events_mismatch lb cs : sensible false cs -> ends_match [] cs = false -> read_events (render lb cs) = Err.
Proof.
  intros S M. unfold read_events. rewrite lex_render by exact S. cbn [bind]. unfold events_of, coalesce. rewrite nested_coalesce, nested_asked_eq. cbn [open_names]. now rewrite M.
Qed.
Lemma ends_attrs a st cs : ends_match st (map (fun kv => CAttrEsc (fst kv) (snd kv)) a ++ cs) = ends_match st cs.
Proof. induction a as [|kv a IH]; [reflexivity|]. exact IH. Qed.
Lemma ends_node x : forall st cs, ends_match st (write_node x ++ cs) = ends_match st cs.
Proof.
  induction x as [t|n a c IH] using xnode_ind'; intros st cs; [reflexivity|]. cbn [write_node app].
  assert (L : forall st cs, ends_match st (flat_map write_node c ++ cs) = ends_match st cs).
  { clear -IH. induction IH as [|y c Hy _ IH]; intros st cs; [reflexivity|]. cbn [flat_map]. now rewrite <- app_assoc, Hy. }
  destruct c as [|y c]; cbn [has_content ends_match]; rewrite <- app_assoc, ends_attrs, <- app_assoc, L; cbn [app ends_match]; [reflexivity|].
  rewrite str_eqb_refl. reflexivity.
Qed.
Lemma ends_nodes l st cs : ends_match st (flat_map write_node l ++ cs) = ends_match st cs.
Proof. revert st cs. induction l as [|x l IH]; intros st cs; [reflexivity|]. cbn [flat_map]. now rewrite <- app_assoc, ends_node. Qed.

Lemma sensible_app a p b : sensible p a -> sensible false b -> sensible p (a ++ b).
Proof. intros H B. induction H; cbn [app]; first [exact B|apply sn_end_slash; assumption|constructor; assumption]. Qed.
Definition script_ok (s : script) : Prop := Forall names_ok (sc_body s).
Lemma script_sensible s cs : script_ok s -> (forall q, sensible q cs) -> forall q, sensible q (script_calls s ++ cs).
Proof.
  intros H C q. unfold script_calls. cbn [app]. apply sn_elem; [name_lit|]. apply sn_attr_esc; [name_lit|]. rewrite <- app_assoc. cbn [app].
  apply sensible_nodes; [exact H|]. intros q'. apply (sn_end_slash q' (lit "office:script")); [name_lit|apply C].
Qed.
Lemma listener_sensible l cs : (forall q, sensible q cs) -> forall q, sensible q (listener_calls l ++ cs).
Proof. intros C q. unfold listener_calls. cbn [app]. apply sn_empty; [name_lit|]. repeat (apply sn_attr_esc; [name_lit|]). apply C. Qed.
Lemma scripts_sensible ss ls cs : Forall script_ok ss -> sensible false cs -> sensible true (write_office_scripts ss ls ++ cs).
Proof.
  intros H C. unfold write_office_scripts. rewrite <- !app_assoc. cbn [app]. apply sn_elem_if; [name_lit|].
  assert (E : forall q, sensible q (CEndIf match ss with [] => false | _ :: _ => true end t_scripts :: cs)) by (intros q; apply sn_end_if; [name_lit|exact C]).
  assert (L : forall q, sensible q (flat_map listener_calls ls ++ CEndIf match ss with [] => false | _ :: _ => true end t_scripts :: cs)).
  { clear -E. induction ls as [|l ls IH]; [exact E|]. intros q. cbn [flat_map]. rewrite <- app_assoc. now apply listener_sensible. }
  clear E. generalize dependent (match ss with [] => false | _ :: _ => true end). intros b L. revert L.
  generalize (flat_map listener_calls ls ++ CEndIf b t_scripts :: cs). intros cs' L. generalize true.
  induction H as [|s ss Hs _ IH]; [exact L|]. intros q. cbn [flat_map]. rewrite <- app_assoc. now apply script_sensible.
Qed.

(** ** Documents without scripts *)

Definition not_start (n : str) (e : event) : Prop := match e with EStart t _ => t <> n | _ => True end.
Lemma skip_outside evs : Forall (not_start t_scripts) evs -> forall n b, (length evs <= n)%nat -> read_scripts n false evs b = Ok b.
Proof.
  induction 1 as [|e evs E _ IH]; intros n b L; [now destruct n|]. destruct n as [|n]; [inversion L|]. cbn [length] in L.
  cbn [read_scripts]. destruct e; try (apply IH; lia). cbn in E. rewrite (proj2 (str_eqb_neq n0 t_scripts) E). apply IH. lia.
Qed.
Lemma not_start_coalesce n evs : Forall (not_start n) evs -> forall acc, Forall (not_start n) (coalesce_from acc evs).
Proof.
  assert (E : forall acc, Forall (not_start n) (emit_text acc)) by (intros []; repeat constructor).
  induction 1 as [|e evs H _ IH]; intros acc; [apply E|]. destruct e; cbn [coalesce_from]; try (apply Forall_app; split; [apply E|constructor; [exact H|apply IH]]). apply IH.
Qed.
(** Calls that open no element of that name. *)
Definition opens (n : str) (c : call) : Prop := match c with CElem m | CElemIf true m | CElemText m _ | CElemTextEsc m _ => m = n | _ => False end.
Definition pending_is (n : str) (p : pending) : Prop := match p with Some (m, _, false) => m = n | _ => False end.
Lemma not_start_asked n lb cs : Forall (fun c => ~ opens n c) cs -> forall p, ~ pending_is n p -> Forall (not_start n) (asked esc_split lb p cs).
Proof.
  assert (F : forall p, ~ pending_is n p -> Forall (not_start n) (finish lb p)) by (intros [[[m a] []]|] H; repeat constructor; exact H).
  assert (T : forall t, Forall (not_start n) (esc_split t)) by (induction t as [|c t IH]; [constructor|]; cbn; destruct (entity_of c); constructor; auto; exact I).
  assert (NN : ~ pending_is n None) by (intros []).
  induction 1 as [|c cs C _ IH]; intros p P; [constructor|].
  destruct c as [?|? ?|? ?|?|b ?|?|? ?|? ?|?|?|b ?|?]; cbn [asked]; cbn [opens] in C; try (destruct b; cbn [negb]);
    repeat first [apply Forall_app; split|apply F; exact P|apply T|apply Forall_cons; [first [exact I|exact C]|]|apply IH; first [exact NN|exact C|exact P|intros []|idtac]].
  all: destruct p as [[[m a] e]|]; exact P.
Qed.

(** ** Reading documents in which the elements are as the format wants them *)

Definition right_actuate (a : xactuate) : str := match a with OnLoad => lit "onLoad" | OnRequest => lit "onRequest" end.
Definition right_script (s : script) : list call :=
  [CElem t_script; CAttrEsc (lit "script:language") (sc_lang s)] ++ flat_map write_node (sc_body s) ++ [CEnd t_script].
Definition right_listener (l : listener) : list call :=
  [CEmpty t_listener; CAttrEsc (lit "script:event-name") (li_event l); CAttrEsc (lit "script:language") (li_lang l);
   CAttrEsc (lit "script:macro-name") (li_macro l); CAttrEsc (lit "xlink:actuate") (right_actuate (li_actuate l));
   CAttrEsc (lit "xlink:href") (li_href l); CAttrEsc (lit "xlink:type") (show_xtype (li_type l))].
Definition right_scripts (ss : list script) (ls : list listener) : list call :=
  [CElem t_scripts] ++ flat_map right_script ss ++ [CElem (lit "office:event-listeners")] ++ flat_map right_listener ls
  ++ [CEnd (lit "office:event-listeners"); CEnd t_scripts].
Definition right_content (ns : list (str * str)) (ss : list script) (ls : list listener) (rest : list call) : list call :=
  [CDtd (lit "UTF-8"); CElem (lit "office:document-content")] ++ map (fun kv => CAttrEsc (fst kv) (snd kv)) ns
  ++ right_scripts ss ls ++ rest ++ [CEnd (lit "office:document-content")].

(** A script, its text put together. *)
Definition plain_script (s : script) : str * list xnode := (sc_lang s, merge_text (map norm (sc_body s))).
Definition whole_script (s : script) : Prop := Forall (lacks t_script) (sc_body s).

Lemma after_end_length s evs : (length (after_end s evs) <= length evs)%nat.
Proof. induction evs as [|e evs IH]; [reflexivity|]. cbn [after_end length]. destruct e; try lia. destruct (str_eqb n s); lia. Qed.
Definition reads (evs : list event) (inside : bool) (b : scripts) (r : res scripts) : Prop := forall n, (length evs <= n)%nat -> read_scripts n inside evs b = r.
Lemma reads_step i i' e evs b b' (r : res scripts) : not_text e ->
  (forall n, read_scripts (S n) i (e :: coalesce evs) b = read_scripts n i' (coalesce evs) b') -> reads (coalesce evs) i' b' r -> reads (coalesce (e :: evs)) i b r.
Proof.
  intros E H R n L. unfold coalesce in L |- *. rewrite coalesce_cons in * by exact E. cbn [emit_text app length] in *. destruct n as [|n]; [inversion L|].
  fold (coalesce evs) in *. rewrite H. apply R. lia.
Qed.
Lemma script_read s evs : whole_script s -> exists s', plain_script s' = plain_script s /\ forall b r, reads (coalesce evs) true (fst b ++ [s'], snd b) r ->
  reads (coalesce (EStart t_script [(lit "script:language", sc_lang s)] :: flat_map (node_events false) (sc_body s) ++ EEnd t_script :: EText [] :: evs)) true b r.
Proof.
  intros W.
  assert (T : exists t, read_tag (coalesce (EStart t_script [(lit "script:language", sc_lang s)] :: flat_map (node_events false) (sc_body s) ++ EEnd t_script :: EText [] :: evs)) = Ok (t, coalesce evs)
    /\ norm t = norm (XTag t_script [(lit "script:language", sc_lang s)] (sc_body s))).
  { destruct s as [la [|y body]].
    - exists (XTag t_script [(lit "script:language", la)] []). split; [|reflexivity]. cbn [sc_lang sc_body flat_map app]. unfold coalesce. rewrite !coalesce_cons by exact I.
      cbn [emit_text app read_tag read_xml read_xml_loop]. rewrite str_eqb_refl. reflexivity.
    - destruct (read_tree t_script [(lit "script:language", la)] (y :: body) evs W) as (t & R & N). exists t. split; [|exact N]. rewrite <- R. f_equal.
      cbn [node_events sc_lang sc_body app]. rewrite <- app_assoc. reflexivity. }
  destruct T as (t & R & N). exists (script_of t). split.
  { destruct t as [x|m a c]; [discriminate|]. cbn [norm] in N. injection N as -> -> N. unfold plain_script. cbn [script_of sc_lang sc_body fold_left fst snd].
    rewrite N. f_equal. }
  intros b r H n L. revert L. unfold coalesce in R |- *. rewrite coalesce_cons in * by exact I. cbn [emit_text app read_tag] in *. cbn [length].
  set (l := coalesce_from [] (flat_map (node_events false) (sc_body s) ++ EEnd t_script :: EText [] :: evs)) in *. intros L. destruct n as [|n]; [inversion L|].
  cbn [read_scripts]. replace (str_eqb t_script t_script) with true by (symmetry; apply str_eqb_refl). rewrite R. cbn [bind].
  assert (Le : (length (coalesce_from [] evs) <= length l)%nat).
  { unfold read_xml in R. apply loop_rest in R. unfold coalesce in R. rewrite R. apply after_end_length. }
  apply H. unfold coalesce. lia.
Qed.
Lemma actuate_right a : parse_xactuate (right_actuate a) = Ok a.
Proof. destruct a; reflexivity. Qed.
Lemma type_right t : parse_xtype (show_xtype t) = Ok t.
Proof. destruct t; reflexivity. Qed.
Definition listener_events (l : listener) : event :=
  EEmpty t_listener [(lit "script:event-name", li_event l); (lit "script:language", li_lang l); (lit "script:macro-name", li_macro l);
    (lit "xlink:actuate", right_actuate (li_actuate l)); (lit "xlink:href", li_href l); (lit "xlink:type", show_xtype (li_type l))].
Lemma listener_attrs_right l : listener_attrs [(lit "script:event-name", li_event l); (lit "script:language", li_lang l); (lit "script:macro-name", li_macro l);
    (lit "xlink:actuate", right_actuate (li_actuate l)); (lit "xlink:href", li_href l); (lit "xlink:type", show_xtype (li_type l))] listener0 = Ok l.
Proof. destruct l as [e la m a h t]. destruct a, t; reflexivity. Qed.
Lemma listener_read l evs b r : reads (coalesce evs) true (fst b, am_put (li_event l) l (snd b)) r -> reads (coalesce (listener_events l :: evs)) true b r.
Proof.
  apply (reads_step true true); [exact I|]. intros n. cbn [read_scripts listener_events]. replace (str_eqb t_listener t_script) with false by reflexivity. rewrite str_eqb_refl, listener_attrs_right. reflexivity.
Qed.
Lemma asked_script s cs : asked esc_split false None (right_script s ++ cs)
  = EStart t_script [(lit "script:language", sc_lang s)] :: flat_map (node_events false) (sc_body s) ++ EEnd t_script :: EText [] :: asked esc_split false None cs.
Proof.
  unfold right_script. cbn [app asked finish with_attr]. rewrite <- app_assoc. cbn [app].
  assert (L : forall l p cs, l <> [] -> asked esc_split false p (flat_map write_node l ++ cs) = finish false p ++ flat_map (node_events false) l ++ asked esc_split false None cs).
  { clear. induction l as [|x l IH]; intros p cs N; [congruence|]. cbn [flat_map]. rewrite <- !app_assoc, asked_node. destruct l as [|y l]; [reflexivity|]. rewrite IH by discriminate. reflexivity. }
  destruct (sc_body s) as [|y body]; [reflexivity|]. rewrite L by discriminate. reflexivity.
Qed.
Lemma asked_listener l p cs : flushes cs -> asked esc_split false p (right_listener l ++ cs) = finish false p ++ listener_events l :: EText [] :: asked esc_split false None cs.
Proof. intros F. unfold right_listener. cbn [app asked finish with_attr]. rewrite asked_flush by exact F. reflexivity. Qed.
Lemma flushes_listeners ls cs : flushes cs -> flushes (flat_map right_listener ls ++ cs).
Proof. destruct ls; [auto|]. intros _. exact I. Qed.

(** Putting the listeners one after the other. *)
Definition put_all (ls : list listener) (m : amap listener) : amap listener := fold_left (fun m l => am_put (li_event l) l m) ls m.
Lemma listeners_read ls evs : forall b r cs, flushes cs -> asked esc_split false None cs = evs -> reads (coalesce evs) true (fst b, put_all ls (snd b)) r ->
  reads (coalesce (asked esc_split false None (flat_map right_listener ls ++ cs))) true b r.
Proof.
  induction ls as [|l ls IH]; intros b r cs F E H; cbn [flat_map app]; [rewrite E; destruct b; exact H|]. rewrite <- app_assoc.
  rewrite asked_listener by now apply flushes_listeners. cbn [finish app]. apply listener_read. change (coalesce (EText [] :: ?x)) with (coalesce x).
  apply IH; [exact F|exact E|exact H].
Qed.
Lemma scripts_read ss cs : Forall whole_script ss -> exists ss', map plain_script ss' = map plain_script ss /\ forall b r,
  reads (coalesce (asked esc_split false None cs)) true (fst b ++ ss', snd b) r -> reads (coalesce (asked esc_split false None (flat_map right_script ss ++ cs))) true b r.
Proof.
  induction 1 as [|s ss W _ (ss' & Ess & IH)].
  - exists []. split; [reflexivity|]. intros [b1 b2] r H. cbn [fst snd] in H. rewrite app_nil_r in H. exact H.
  - cbn [flat_map]. destruct (script_read s (asked esc_split false None (flat_map right_script ss ++ cs)) W) as (s' & Es & R).
    exists (s' :: ss'). split; [cbn [map]; now rewrite Es, Ess|]. intros b r H. rewrite <- app_assoc, asked_script. apply (R b r).
    apply IH. cbn [fst snd]. rewrite <- app_assoc. exact H.
Qed.
Lemma put_all_other ls k : ~ In k (map li_event ls) -> forall m, am_get k (put_all ls m) = am_get k m.
Proof.
  induction ls as [|l ls IH]; intros H m; [reflexivity|]. cbn [map In] in H. cbn [put_all fold_left]. fold (put_all ls (am_put (li_event l) l m)). rewrite IH by tauto.
  rewrite am_get_put. destruct (str_eqb (li_event l) k) eqn:E; [|reflexivity]. apply str_eqb_eq in E. tauto.
Qed.
Lemma put_all_get ls : NoDup (map li_event ls) -> forall m l, In l ls -> am_get (li_event l) (put_all ls m) = Some l.
Proof.
  induction ls as [|x ls IH]; intros D m l H; [contradiction|]. cbn [map] in D. apply NoDup_cons_iff in D as [X D]. cbn [put_all fold_left]. fold (put_all ls (am_put (li_event x) x m)).
  destruct H as [<-|H]; [|now apply IH]. rewrite put_all_other by exact X. rewrite am_get_put, str_eqb_refl. reflexivity.
Qed.
Lemma put_all_none ls k : am_get k (put_all ls []) <> None -> In k (map li_event ls).
Proof.
  intros H. destruct (in_dec (list_eq_dec N.eq_dec) k (map li_event ls)) as [I|I]; [exact I|]. rewrite put_all_other in H by exact I. now cbn in H.
Qed.

Lemma nested_in a : forall st, calls_nested st a -> calls_nested (st ++ [lit "office:document-content"]) (a ++ [CEnd (lit "office:document-content")]).
Proof.
  induction a as [|c a IH]; intros st H; cbn [app]; [cbn in H; subst st; split; reflexivity|].
  destruct c as [?|? ?|? ?|?|[] ?|?|? ?|? ?|?|?|[] ?|?]; cbn [calls_nested] in *; try (apply IH; exact H); try (apply (IH (_ :: st)); exact H);
    (destruct st as [|m st]; [contradiction|]; cbn [app]; split; [apply H|apply IH, H]).
Qed.
Lemma right_sensible ns ss ls rest : Forall (fun kv => name_ok (fst kv)) ns -> Forall script_ok ss -> sensible false rest -> sensible false (right_content ns ss ls rest).
Proof.
  intros N S R. unfold right_content, right_scripts. cbn [app]. apply sn_dtd; [chk|]. apply sn_elem; [name_lit|]. apply sensible_attrs; [exact N|]. apply sn_elem; [name_lit|].
  rewrite <- !app_assoc. cbn [app]. rewrite <- !app_assoc. cbn [app].
  assert (E : forall q, sensible q (CEnd (lit "office:event-listeners") :: CEnd t_scripts :: rest ++ [CEnd (lit "office:document-content")])).
  { intros q. apply sn_end; [name_lit|]. apply sn_end; [name_lit|]. apply sensible_app; [exact R|]. apply sn_end; [name_lit|constructor]. }
  assert (L : forall q, sensible q (flat_map right_listener ls ++ CEnd (lit "office:event-listeners") :: CEnd t_scripts :: rest ++ [CEnd (lit "office:document-content")])).
  { induction ls as [|l ls IH]; [exact E|]. intros q. cbn [flat_map]. rewrite <- app_assoc. unfold right_listener at 1. cbn [app]. apply sn_empty; [name_lit|].
    repeat (apply sn_attr_esc; [name_lit|]). apply IH. }
  match goal with |- sensible true ?x => cut (forall q, sensible q x); [auto|] end. induction S as [|s ss Hs _ IH]; intros q; cbn [flat_map app]; [apply sn_elem; [name_lit|apply L]|].
  rewrite <- app_assoc. unfold right_script at 1. cbn [app]. apply sn_elem; [name_lit|]. apply sn_attr_esc; [name_lit|]. rewrite <- app_assoc. cbn [app].
  apply sensible_nodes; [exact Hs|]. intros q'. apply sn_end; [name_lit|]. apply IH.
Qed.
Lemma right_nested ns ss ls rest : calls_nested [] rest -> calls_nested [] (right_content ns ss ls rest).
Proof.
  intros R. unfold right_content, right_scripts. cbn [app calls_nested]. apply nested_attr_calls; [apply Forall_map; apply Forall_forall; discriminate|]. cbn [calls_nested].
  rewrite <- !app_assoc. cbn [app]. rewrite <- !app_assoc. cbn [app].
  induction ss as [|s ss IH]; cbn [flat_map app].
  - cbn [calls_nested]. induction ls as [|l ls IH]; cbn [flat_map app]; [split; [reflexivity|]; split; [reflexivity|]; exact (nested_in rest [] R)|]. rewrite <- app_assoc. exact IH.
  - rewrite <- app_assoc. unfold right_script at 1. cbn [app calls_nested]. rewrite <- app_assoc. apply nested_nodes. cbn [app calls_nested]. split; [reflexivity|]. exact IH.
Qed.
