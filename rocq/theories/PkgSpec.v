(** What the manifest of a package is about. *)
From Verif Require Import Base XmlModel BookModel PkgModel.

(** The map has one entry per path. *)
Definition keyed (m : manifest) : Prop := NoDup (map fst m) /\ forall k e, In (k, e) m -> k = en_path e.
(** The paths a manifest document lists, in order. *)
Definition listed (evs : list event) : list str :=
  flat_map (fun e => match e with
                     | EEmpty n a => if str_eqb n (lit "manifest:file-entry") then
                         flat_map (fun kv => if str_eqb (fst kv) (lit "manifest:full-path") then [snd kv] else []) a else []
                     | _ => [] end) evs.
(** What is in every package and never listed. *)
Definition frame_parts : list str := [lit "mimetype"; lit "META-INF/"; lit "META-INF/manifest.xml"].
(** What the library writes itself. *)
Definition standard_parts : list str := [lit "/"; lit "settings.xml"; lit "styles.xml"; lit "content.xml"; lit "meta.xml"].
(** A path that names a file of the user. *)
Definition user_file (path : str) : Prop := ~ In path standard_parts /\ ~ In path frame_parts /\ ~ exists d, path = d ++ lit "/".
