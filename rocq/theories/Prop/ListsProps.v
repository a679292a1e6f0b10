(** * C81, C82: what the listing commands and info show *)
From Coq Require Import String Ascii List ZArith.
From stdpp Require Import gmap strings.
From Verif Require Import Proof.GraphFacts.
From Verif Require Import Model.Py Model.ItemByRepo Model.Dependency Model.Package Model.ComponentDB Model.Databases
  Model.InstallDB Model.System Model.Plan Model.Lists
  Spec.ItemByRepoSpec Spec.DependencySpec Spec.DatabaseSpec Spec.SystemSpec Spec.PlanSpec Spec.ListsSpec
  Proof.RevDepFacts Proof.SystemFacts Proof.ComponentFacts Proof.PlanTop Proof.ListsFacts Proof.ListsTop.
Require Import Verif.Prop.PlanProps.
Open Scope string_scope.
Open Scope list_scope.

(** ** C81 *)
(** list-installed: the installed packages and no others, each on one line, in order of name. *)
Theorem C81_list_installed lang full info_text time s : system s ->
  exists out, cmd_list_installed lang full info_text time s false false = Ok out /\ listing (installed s) (short_line lang s) out.
Proof. exact (installed_short lang full info_text time s). Qed.
Print Assumptions C81_list_installed.
Theorem C81_list_installed_table lang full info_text time s : system s ->
  exists out, cmd_list_installed lang full info_text time s false true = Ok (table_head ++ out) /\ listing (installed s) (table_line time s) out.
Proof. exact (installed_table lang full info_text time s). Qed.
Print Assumptions C81_list_installed_table.
Theorem C81_list_installed_long lang full info_text time s : system s ->
  exists out, cmd_list_installed lang full info_text time s true false = Ok out /\ listing_blocks (installed s) (full_lines full info_text s) out.
Proof. exact (installed_long lang full info_text time s). Qed.
Print Assumptions C81_list_installed_long.
(** there is one such list only, so that the theorems above say what is printed *)
Theorem C81_one_roll P a b : roll P a -> roll P b -> a = b.
Proof. exact (roll_unique P a b). Qed.
Print Assumptions C81_one_roll.

(** list-available REPO...: for each repository named, the packages it has and no others; what is
    shown of them is what the first repository with a package of that name says. *)
Theorem C81_list_available_partial lang full s long uninstalled no_color repos : system s -> repos <> [] ->
  exists head parts, cmd_list_available lang full s long uninstalled no_color repos = Ok (head ++ concat parts) /\ key_line no_color uninstalled head /\
    List.Forall2 (fun repo part => listing_blocks (fun n => exists p, carries s repo n p) (available_lines lang full s long uninstalled no_color) part) repos parts.
Proof. exact (available_named lang full s long uninstalled no_color repos). Qed.
Print Assumptions C81_list_available_partial.
(** list-available: all the repositories, in priority order, each under its name *)
Theorem C81_list_available_all_partial lang full s long uninstalled no_color : system s ->
  exists head parts, cmd_list_available lang full s long uninstalled no_color [] = Ok (head ++ concat parts) /\ key_line no_color uninstalled head /\
    List.Forall2 (fun repo part => exists ls, part = ("Repository : " ++ repo)%string :: "" :: ls /\
        listing_blocks (fun n => exists p, carries s repo n p) (available_lines lang full s long uninstalled no_color) ls)
      (order_of (y_db s)) parts.
Proof. exact (available_all lang full s long uninstalled no_color). Qed.
Print Assumptions C81_list_available_all_partial.
(** The first repository with the name is the one listed, if no other comes first *)
Theorem C81_first_is_listed s repo n p first : system s -> carries s repo n p -> first_with s n first ->
  (forall before after, order_of (y_db s) = before ++ repo :: after -> forall r q, In r before -> ~ carries s r n q) -> first = repo.
Proof. exact (first_listed s repo n p first). Qed.
Print Assumptions C81_first_is_listed.

Definition told (name summary release : string) : package := mkPackage name "1" release None [] [] [] (Some "misc") [("en", summary)] [] [] false "".
Definition two_shops : sys := apply_all
  [YRepo (OAddRepo "main" "http://main/pisi-index.xml" None); YRepo (OAddRepo "extra" "http://extra/pisi-index.xml" None);
   YRepo (OUpdateRepo "main" (mkIndex [] [told "lib" "from main" "1"; told "app" "an application" "1"] []));
   YRepo (OUpdateRepo "extra" (mkIndex [] [told "lib" "from extra" "2"; told "game" "a game" "1"] []));
   YInstall (told "app" "an application" "1") [] false; YInstall (told "adb" "a tool" "1") [] false].
Lemma two_shops_system : system two_shops.
Proof. apply apply_all_system. intros d K. repeat (destruct K as [K|K]; [first [injection K as <-; exact Logic.I|discriminate K]|]). destruct K. Qed.
Definition said_by (s : sys) (repo n : string) : option string := match get_package (y_db s) n (RName repo) with Ok p => Some (local_text "en" (p_summary p)) | Err _ => None end.

(** As stated it is false: list-available extra shows what main says about lib. *)
Theorem C81_list_available_refuted : exists s line, system s /\
  cmd_list_available "en" p_name s false false true ["extra"] = Ok ["game            - a game "; line] /\
  said_by s "extra" "lib" = Some "from extra" /\ line = "lib             - from main ".
Proof. exists two_shops, "lib             - from main ". split; [exact two_shops_system|]. split; [vm_compute; reflexivity|]. split; vm_compute; reflexivity. Qed.
Print Assumptions C81_list_available_refuted.
(** --uninstalled goes for nothing with --long; and a repository that is not there looks like an empty one. *)
Theorem C81_uninstalled_refuted : exists s, system s /\ installed s "app" /\
  cmd_list_available "en" p_name s true true true ["main"] = Ok ["app"; "lib"] /\
  cmd_list_available "en" p_name s false false true ["nowhere"] = Ok [].
Proof. exists two_shops. split; [exact two_shops_system|]. split; [vm_compute; reflexivity|]. split; vm_compute; reflexivity. Qed.
Print Assumptions C81_uninstalled_refuted.

(** list-components, list-sources, list-repo, list-pending *)
Theorem C81_list_components about_component component_text s long : system s ->
  exists out, cmd_list_components about_component component_text s long = Ok out /\
    listing (a_component s) (component_line about_component component_text s long) out.
Proof. exact (components_listed about_component component_text s long). Qed.
Print Assumptions C81_list_components.
Theorem C81_list_sources about_source source_text s long : system s ->
  exists out, cmd_list_sources about_source source_text s long = Ok out /\
    listing_blocks (fun n => exists repo sp, get_item (order_of (y_db s)) (db_src (y_db s)) n (RName repo) = Ok sp) (source_lines about_source source_text s long) out.
Proof. exact (sources_listed about_source source_text s long). Qed.
Print Assumptions C81_list_sources.
Theorem C81_list_repo s : system s -> exists uris,
  cmd_list_repo s = Ok (concat (map (fun ru : string * string => [fst ru; ("   " ++ snd ru)%string]) (combine (order_of (y_db s)) uris))) /\
  List.Forall2 (fun repo uri => rd_infos (db_repo (y_db s)) !! repo = Some uri) (order_of (y_db s)) uris /\ List.NoDup (order_of (y_db s)) /\
  forall repo, In repo (order_of (y_db s)) <-> has_repo (db_repo (y_db s)) repo = true.
Proof. exact (fun H => repos_listed_std s H). Qed.
Print Assumptions C81_list_repo.
Theorem C81_list_pending s out : cmd_list_pending s = Ok out -> List.NoDup out /\ forall n, In n out <-> listed_pending s n.
Proof. exact (fun H => pending_printed_std s out H). Qed.
Print Assumptions C81_list_pending.

(** What is listed as upgradable: the installed packages a repository has a newer release of, each
    once.  If it fails, a release is not a number. *)
Theorem C81_list_upgradable s : system s ->
  match list_upgradable s with
  | Ok l => List.NoDup l /\ forall n, In n l <-> upgrade_due s false n
  | Err e => e = EValue /\ exists n v r b p, installed s n /\ get_version (y_inst s) n = Ok (v, r, b) /\ offered s n p /\
      (~ readable r \/ ~ readable (p_release p))
  end.
Proof. exact (fun H => upgradable_listed_std s H). Qed.
Print Assumptions C81_list_upgradable.

(** adb has no repository, app is in main, lib and game are not installed *)
Example C81_nontrivial : system two_shops /\
  cmd_list_installed "tr" p_name i_version (fun _ => "today") two_shops false false = Ok ["            adb - a tool"; "            app - an application"] /\
  cmd_list_installed "tr" p_name i_version (fun _ => "today") two_shops false true =
    Ok (table_head ++ ["adb              | i|         1|     1|  None|        |       today"; "app              | i|         1|     1|  None|        |       today"]) /\
  cmd_list_available "en" p_name two_shops false true false [] =
    Ok ["Repository : main"; ""; "lib             - from main "; "Repository : extra"; ""; "game            - a game "; "lib             - from main "] /\
  cmd_list_repo two_shops = Ok ["main"; "   http://main/pisi-index.xml"; "extra"; "   http://extra/pisi-index.xml"] /\
  cmd_list_components c_name c_name two_shops true = Ok ["misc"].
Proof. split; [exact two_shops_system|]. repeat (split; [vm_compute; reflexivity|]). vm_compute; reflexivity. Qed.
Example C81_upgradable_nontrivial : system shop /\ list_upgradable shop = Ok ["lib"] /\ list_upgradable builds <> Ok [].
Proof. split; [exact shop_system|]. split; [vm_compute; reflexivity|]. vm_compute; discriminate. Qed.

(** ** C82 *)
(** info of a component: all that the repositories put in it *)
Theorem C82_info_component_partial lang full about_component component_text package_in s short n : system s -> a_component s n ->
  exists c, info_one lang full about_component component_text package_in s short n =
      Ok [if short then (c_name c ++ " - " ++ about_component c)%string else component_text c] /\
    (forall p, In p (c_packages c) <-> exists r, In r (order_of (y_db s)) /\ lists_package (y_db s) n (RName r) p) /\
    (forall p, In p (c_sources c) <-> exists r, In r (order_of (y_db s)) /\ lists_source (y_db s) n (RName r) p) /\
    List.NoDup (c_packages c) /\ List.NoDup (c_sources c).
Proof. exact (info_component_std lang full about_component component_text package_in s short n). Qed.
Print Assumptions C82_info_component_partial.
(** info of a package file: what the file says *)
Theorem C82_info_file_partial lang full about_component component_text package_in s short n : system s -> ~ a_component s n -> package_file n ->
  match package_in n with
  | Ok p => exists ls, info_one lang full about_component component_text package_in s short n = Ok (("Package file: " ++ n)%string :: ls) /\ short_text lang full short p ls
  | Err e => info_one lang full about_component component_text package_in s short n = Err e
  end.
Proof. exact (info_file lang full about_component component_text package_in s short n). Qed.
Print Assumptions C82_info_file_partial.
(** As stated it is false for each and every package asked for by its name: if there is one, an
    AttributeError; if there is none, not a word. *)
Theorem C82_info_name_refuted lang full about_component component_text package_in s short n : system s -> ~ a_component s n -> ~ package_file n ->
  (installed s n \/ (exists p, offered s n p) -> info_one lang full about_component component_text package_in s short n = Err EAttribute) /\
  (~ installed s n -> (forall p, ~ offered s n p) -> info_one lang full about_component component_text package_in s short n = Ok []).
Proof. exact (info_name lang full about_component component_text package_in s short n). Qed.
Print Assumptions C82_info_name_refuted.
(** several arguments: one after the other, up to the first that fails *)
Theorem C82_info_arguments_partial lang full about_component component_text package_in s short args :
  match cmd_info lang full about_component component_text package_in s short args with
  | Ok out => exists parts, List.Forall2 (fun n part => info_one lang full about_component component_text package_in s short n = Ok part) args parts /\ out = concat parts
  | Err e => exists before n after, args = before ++ n :: after /\ info_one lang full about_component component_text package_in s short n = Err e /\
      forall m, In m before -> exists part, info_one lang full about_component component_text package_in s short m = Ok part
  end.
Proof. exact (info_all lang full about_component component_text package_in s short args). Qed.
Print Assumptions C82_info_arguments_partial.

Definition one_file (n : string) : res package := if String.eqb n "app.pisi" then Ok (told "app" "in a file" "9") else Err EError.
Example C82_nontrivial : system two_shops /\ a_component two_shops "misc" /\ package_file "app.pisi" /\ installed two_shops "app" /\
  cmd_info "en" p_name c_name (fun c => String.concat "," (c_packages c)) one_file two_shops false ["misc"; "nobody"] = Ok ["lib,app,game"] /\
  cmd_info "en" p_name c_name c_name one_file two_shops true ["app.pisi"; "nobody"] = Ok ["Package file: app.pisi"; "            app - in a file"] /\
  cmd_info "en" p_name c_name c_name one_file two_shops true ["app.pisi"; "app"; "misc"] = Err EAttribute.
Proof.
  split; [exact two_shops_system|]. split.
  { apply (component_known two_shops "misc" two_shops_system). vm_compute. reflexivity. }
  split; [now exists "app"|]. split; [vm_compute; reflexivity|]. repeat (split; [vm_compute; reflexivity|]). vm_compute; reflexivity.
Qed.
