(** C38: scripts and event listeners. *)
From Verif Require Import Base Lib EnumModel XmlModel XmlSpec XmlProofs CellIoModel CellIoProofs BookModel BookProps ScriptModel ScriptProofs.

(** A workbook with any script at all is written as a document that cannot be read, whatever else is in it: the end tag is wrong. *)
Theorem C38_unreadable lb ns ss ls rest : Forall (fun kv => name_ok (fst kv)) ns -> Forall script_ok ss -> sensible false rest -> ss <> [] ->
  read_events (render lb (write_content ns ss ls rest)) = Err.
Proof.
  intros N S R E. apply read_events_mismatch; unfold write_content.
  - cbn [app]. apply sn_dtd; [chk|]. apply sn_elem; [name_lit|]. apply sensible_attrs; [exact N|]. apply scripts_sensible; [exact S|].
    apply sensible_app; [exact R|]. apply sn_end; [name_lit|constructor].
  - cbn [app ends_match]. rewrite ends_attrs. unfold write_office_scripts. destruct ss as [|s ss]; [congruence|]. cbn [app ends_match flat_map]. rewrite <- !app_assoc.
    unfold script_calls at 1. cbn [app ends_match]. rewrite <- app_assoc, ends_nodes. reflexivity.
Qed.
(** Without scripts the listeners are written outside of the element they belong into, and are lost. *)
Theorem C38_listeners_lost lb ns ls rest : Forall (fun kv => name_ok (fst kv)) ns -> sensible false rest -> calls_nested [] rest -> Forall (fun c => ~ opens t_scripts c) rest ->
  exists evs, read_events (render lb (write_content ns [] ls rest)) = Ok evs /\ read_content evs = Ok ([], []).
Proof.
  intros N R RN O. exists (events_of lb (write_content ns [] ls rest)). split.
  - apply read_events_render; unfold write_content.
    + cbn [app]. apply sn_dtd; [chk|]. apply sn_elem; [name_lit|]. apply sensible_attrs; [exact N|]. apply scripts_sensible; [constructor|].
      apply sensible_app; [exact R|]. apply sn_end; [name_lit|constructor].
    + cbn [app calls_nested]. apply nested_attr_calls; [apply Forall_map; apply Forall_forall; discriminate|]. unfold write_office_scripts. cbn [app flat_map calls_nested]. rewrite <- app_assoc.
      assert (L : forall l st cs, calls_nested st cs -> calls_nested st (flat_map listener_calls l ++ cs)) by (induction l as [|x l IH]; intros st cs H; [exact H|]; cbn [flat_map]; rewrite <- app_assoc; cbn [listener_calls app calls_nested]; auto).
      apply L. cbn [app calls_nested].
      exact (nested_in rest [] RN).
  - apply skip_outside; [|reflexivity]. unfold events_of, coalesce. apply not_start_coalesce. apply not_start_asked; [|intros []].
    unfold write_content, write_office_scripts. rewrite !Forall_app. cbn [flat_map app].
    assert (L : Forall (fun c => ~ opens t_scripts c) (flat_map listener_calls ls)).
    { apply Forall_forall. intros c H. apply in_flat_map in H as (l & _ & H). cbn in H. repeat (destruct H as [<-|H]; [intros []|]). contradiction. }
    assert (A : Forall (fun c => ~ opens t_scripts c) (map (fun kv => CAttrEsc (fst kv) (snd kv)) ns)) by (apply Forall_map, Forall_forall; intros kv _ []).
    repeat match goal with |- _ /\ _ => split end; auto; repeat (apply Forall_cons || apply Forall_nil); try (intros []; fail); discriminate.
Qed.

(** The reader is not to blame: from a document with the right tags and the right names it reads every script and every listener. *)
Theorem C38_reader ns ss ls rest : Forall (fun kv => name_ok (fst kv)) ns -> Forall script_ok ss -> Forall whole_script ss -> NoDup (map li_event ls) ->
  sensible false rest -> calls_nested [] rest -> Forall (fun c => ~ opens t_scripts c) rest ->
  exists evs b, read_events (render false (right_content ns ss ls rest)) = Ok evs /\ read_content evs = Ok b
    /\ map plain_script (fst b) = map plain_script ss /\ (forall k l, am_get k (snd b) = Some l <-> In l ls /\ li_event l = k).
Proof.
  intros N S W D R RN O. exists (events_of false (right_content ns ss ls rest)).
  assert (X : exists b, read_content (events_of false (right_content ns ss ls rest)) = Ok b /\ map plain_script (fst b) = map plain_script ss /\ snd b = put_all ls []).
  { set (inner := flat_map right_script ss ++ CElem (lit "office:event-listeners") :: flat_map right_listener ls ++ CEnd (lit "office:event-listeners") :: CEnd t_scripts :: rest ++ [CEnd (lit "office:document-content")]).
    assert (E : events_of false (right_content ns ss ls rest) = coalesce (EOther (lit "?xml version=""1.0"" encoding=""UTF-8"" ?") :: EText [c_nl] :: EStart (lit "office:document-content") ns
      :: EStart t_scripts [] :: asked esc_split false None inner)).
    { unfold events_of, right_content, right_scripts. cbn [app asked finish]. rewrite asked_attrs. cbn [app asked finish]. rewrite <- !app_assoc. cbn [app]. rewrite <- !app_assoc. cbn [app]. fold inner.
      rewrite asked_flush; [reflexivity|]. unfold inner. destruct ss; exact I. }
    destruct (scripts_read ss (CElem (lit "office:event-listeners") :: flat_map right_listener ls ++ CEnd (lit "office:event-listeners") :: CEnd t_scripts :: rest ++ [CEnd (lit "office:document-content")]) W)
      as (ss' & Es & Q).
    exists (ss', put_all ls []). split; [|split; [exact Es|reflexivity]].
    assert (G : reads (coalesce (asked esc_split false None inner)) true ([], []) (Ok (ss', put_all ls []))).
    { apply Q. cbn [fst snd app asked finish]. rewrite asked_flush by (apply flushes_listeners; exact I). cbn [finish app].
      apply (reads_step true true _ _ _ (ss', [])); [exact I|reflexivity|]. change (coalesce (EText (nl false) :: ?x)) with (coalesce x). apply (listeners_read ls _ (ss', []) _ (CEnd (lit "office:event-listeners") :: CEnd t_scripts :: rest ++ [CEnd (lit "office:document-content")]) I eq_refl). cbn [fst snd asked finish app].
      apply (reads_step true true _ _ _ (ss', put_all ls [])); [exact I|reflexivity|]. change (coalesce (EText (nl false) :: ?x)) with (coalesce x).
      apply (reads_step true false _ _ _ (ss', put_all ls [])); [exact I|reflexivity|]. change (coalesce (EText (nl false) :: ?x)) with (coalesce x).
      intros n L. apply skip_outside; [|exact L]. apply not_start_coalesce, not_start_asked; [|intros []]. apply Forall_app. split; [exact O|]. constructor; [intros []|constructor]. }
    unfold read_content. rewrite E. unfold coalesce in G |- *. rewrite !coalesce_cons by exact I. cbn [emit_text app coalesce_from]. cbn [length app read_scripts].
    replace (str_eqb (lit "office:document-content") t_scripts) with false by reflexivity. cbn [read_scripts]. rewrite str_eqb_refl.
    apply G. reflexivity. }
  destruct X as (b & X & Es & Ep). exists b. split; [|split; [exact X|split; [exact Es|]]].
  - apply read_events_render; [now apply right_sensible|now apply right_nested].
  - rewrite Ep. intros k l. split.
    + intros H. pose proof (put_all_none ls k) as P. rewrite H in P. specialize (P ltac:(discriminate)). apply in_map_iff in P as (l' & <- & I). rewrite (put_all_get ls D [] l' I) in H.
      injection H as <-. split; [exact I|reflexivity].
    + intros [I <-]. now apply put_all_get.
Qed.

(** ** What is wrong *)

Definition ex_script : script := Script (lit "ooo:Basic") [XTag (lit "script:module") [(lit "script:name", lit "M<1>")] [XText (lit "Sub main"); XText (lit " & end")]].
Definition ex_listener (a : xactuate) : listener := Listener (lit "dom:load") (lit "ooo:script") (lit "main") a (lit "vnd.sun.star.script:M.main?a=1&b=2") XSimple.
Definition ex_ns : list (str * str) := [(lit "xmlns:office", lit "urn:oasis"); (lit "office:version", lit "1.3")].
Definition ex_rest : list call := [CElem (lit "office:body"); CEmpty (lit "office:spreadsheet"); CEnd (lit "office:body")].

(** A script makes the document unreadable. *)
Theorem C38_scripts_refuted : exists s, script_ok s /\ whole_script s /\ read_events (render false (write_content ex_ns [s] [] ex_rest)) = Err.
Proof.
  exists ex_script. split; [|split; [|vm_compute; reflexivity]]; (constructor; [|constructor]).
  - apply names_ok_tag. split; [name_lit|]. split; [constructor; [name_lit|constructor]|]. repeat constructor.
  - cbn [lacks]. repeat split. right. discriminate.
Qed.
(** A listener alone is lost. *)
Theorem C38_listeners_refuted : exists l evs, read_events (render false (write_content ex_ns [] [l] ex_rest)) = Ok evs /\ read_content evs = Ok ([], []).
Proof. exists (ex_listener OnRequest). eexists. split; [vm_compute; reflexivity|]. vm_compute. reflexivity. Qed.
(** Even where they belong, the reader does not take what is written for the moment of the action. *)
Theorem C38_actuate_refuted : forall l, listener_attrs (attrs_of (tl (listener_calls l))) listener0 = Err.
Proof. intros [e la m [] h t]; reflexivity. Qed.
(** A well-formed document with a script without content makes the reader panic: it looks for the end tag of the script, and meets another one. *)
Theorem C38_empty_refuted : exists doc evs, read_events doc = Ok evs /\ read_content evs = Panic
  /\ doc = lit "<office:scripts><office:script script:language=""x""/></office:scripts>".
Proof.
  exists (lit "<office:scripts><office:script script:language=""x""/></office:scripts>"). eexists. split; [vm_compute; reflexivity|]. split; [vm_compute; reflexivity|reflexivity].
Qed.

Example C38_ex : exists evs b, read_events (render false (right_content ex_ns [ex_script; Script [] []] [ex_listener OnLoad; ex_listener OnRequest] ex_rest)) = Ok evs
  /\ read_content evs = Ok b /\ map plain_script (fst b) = map plain_script [ex_script; Script [] []] /\ snd b = [(lit "dom:load", ex_listener OnRequest)].
Proof. eexists. eexists. split; [vm_compute; reflexivity|]. split; [vm_compute; reflexivity|]. split; vm_compute; reflexivity. Qed.

Print Assumptions C38_unreadable.
Print Assumptions C38_listeners_lost.
Print Assumptions C38_reader.
Print Assumptions C38_scripts_refuted.
Print Assumptions C38_listeners_refuted.
Print Assumptions C38_actuate_refuted.
Print Assumptions C38_empty_refuted.
