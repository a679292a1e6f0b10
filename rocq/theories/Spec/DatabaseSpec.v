(** * Histories of the package, source and component databases *)
From Coq Require Import String List ZArith.
From stdpp Require Import gmap strings.
From Verif Require Import Model.Py Model.ItemByRepo Model.Dependency Model.Package Model.ComponentDB Model.Databases Spec.ItemByRepoSpec.
Open Scope string_scope.

(** Everything pisi does to these databases: repository commands, recording an installed
    or third-party package (op/install.py 145, 341-350), forgetting one (op/remove.py 144-147). *)
Inductive dbop :=
| OAddRepo (name uri : string) (position : option Z)
| ORemoveRepo (name : string)
| OUpdateRepo (name : string) (ix : pindex)
| OInstalled (p : package)
| OThirdParty (p : package)
| OForget (name : string).

Definition apply_op (s : dbs) (o : dbop) : res dbs :=
  match o with
  | OAddRepo n u p => op_add_repo s n u p
  | ORemoveRepo n => op_remove_repo s n
  | OUpdateRepo n ix => op_update_repo s n ix
  | OInstalled p => add_package s p RInst
  | OThirdParty p => add_package s p RThird
  | OForget n => remove_tracking_package s n
  end.

(** The states that operations meeting a condition [P] can lead to, from the empty
    databases.  A failing operation leaves the databases as they were (C36). *)
Inductive history_where (P : dbs -> dbop -> Prop) : dbs -> Prop :=
| h_start : history_where P empty_dbs
| h_step s o s' : history_where P s -> P s o -> apply_op s o = Ok s' -> history_where P s'.
Definition reachable : dbs -> Prop := history_where (fun _ _ => True).

(** has and get agree *)
Definition agree {A} (has : res bool) (get : res A) : Prop :=
  (has = Ok true <-> exists x, get = Ok x) /\ (has = Ok false <-> missing get).

(** From [s] to [s'] the database [db] lost exactly what repository [name] had. *)
Definition gone_only {A} (s s' : dbs) (name : string) (db : dbs -> shelf A) : Prop :=
  (forall n, missing (get_item (order_of s') (db s') n (RName name))) /\
  (forall n q, place q -> q <> RName name -> get_item (order_of s') (db s') n q = get_item (order_of s) (db s) n q).

(** ** Reverse dependencies *)

(** Package [p] is recorded in place [q] as [pk]. *)
Definition recorded (s : dbs) (p : string) (q : rarg) (pk : package) : Prop := get_package s p q = Ok pk.

(** The index for place [q] is the inverse of the dependency relation there. *)
Definition revdeps_exact (s : dbs) : Prop :=
  forall x q l, place q -> get_rev_deps s x q = Ok l ->
  forall p d, In (p, d) l <-> exists pk, recorded s p q pk /\ In d (p_deps pk) /\ dep_package d = x.

(** At most one dependency on each target *)
Definition one_dep_per_target (p : package) : Prop := NoDup (map dep_package (p_deps p)).

(** No package recorded in [q], other than [n] itself, depends on [n]. *)
Definition unneeded (s : dbs) (n : string) (q : rarg) : Prop :=
  forall p pk d, recorded s p q pk -> In d (p_deps pk) -> dep_package d = n -> p = n.

Definition unrecorded (s : dbs) (n : string) (q : rarg) : Prop := missing (get_package s n q).

(** Operations under which the index stays exact. *)
Definition revdep_careful (s : dbs) (o : dbop) : Prop :=
  match o with
  | OInstalled p => unrecorded s (p_name p) RInst /\ one_dep_per_target p
  | OThirdParty p => unrecorded s (p_name p) RThird /\ one_dep_per_target p
  | OForget n => unneeded s n RInst /\ unneeded s n RThird
  | OUpdateRepo _ ix => NoDup (map p_name (ix_packages ix)) /\ Forall one_dep_per_target (ix_packages ix)
  | _ => True
  end.

(** ** Components *)

(** What component [c] lists for place [q] (nothing if it is not known there). *)
Definition lists_package (s : dbs) (c : string) (q : rarg) (p : string) : Prop :=
  exists comp, get_component (order_of s) (db_comp s) c q = Ok comp /\ In p (c_packages comp).
Definition lists_source (s : dbs) (c : string) (q : rarg) (p : string) : Prop :=
  exists comp, get_component (order_of s) (db_comp s) c q = Ok comp /\ In p (c_sources comp).

Definition components_exact (s : dbs) : Prop :=
  forall c q p, place q ->
  (lists_package s c q p <-> exists pk, recorded s p q pk /\ p_partOf pk = Some c) /\
  (lists_source s c q p <-> exists sp, get_item (order_of s) (db_src s) p q = Ok sp /\ sp_partOf sp = Some c).

(** Operations under which component lists stay exact: a package is not re-recorded under
    another component without having been removed, and an index carries components without
    package lists and no name under two components. *)
Definition component_careful (s : dbs) (o : dbop) : Prop :=
  match o with
  | OInstalled p => forall old, recorded s (p_name p) RInst old -> p_partOf old = p_partOf p
  | OThirdParty p => forall old, recorded s (p_name p) RThird old -> p_partOf old = p_partOf p
  | OUpdateRepo _ ix =>
      (forall c, In c (ix_components ix) -> c_packages c = [] /\ c_sources c = []) /\
      (forall p p', In p (ix_packages ix) -> In p' (ix_packages ix) -> p_name p = p_name p' -> p_partOf p = p_partOf p') /\
      (forall p p', In p (ix_specs ix) -> In p' (ix_specs ix) -> sp_name p = sp_name p' -> sp_partOf p = sp_partOf p')
  | _ => True
  end.
