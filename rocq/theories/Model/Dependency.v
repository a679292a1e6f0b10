(** * pisi/data/dependency.py: the Dependency class *)
From Coq Require Import String Ascii List Bool ZArith.
From Verif Require Import Model.Py Model.Version.
Import ListNotations.
Open Scope string_scope.

(** dependency.py 24-34: the attributes. [None] and [Some ""] are both falsy. *)
Record dependency := mkDep {
  dep_package : string;
  dep_version : option string;
  dep_versionFrom : option string;
  dep_versionTo : option string;
  dep_release : option string;
  dep_releaseFrom : option string;
  dep_releaseTo : option string
}.

(** One [if self.X: ret &= v OP Version(self.X)] of dependency.py 53-58 / 60-65.  The
    object [v] is shared between the tests and comparison pads it in place, so the
    possibly longer [v] is passed on. *)
Definition check_bound (test : Z -> bool) (bound : option string) (st : bool * version)
  : res (bool * version) :=
  if truthy bound then
    match bound with
    | Some b =>
        w <- parse_version b ;;
        let '(c, (v', _)) := compare_mut (snd st) w in
        Ok (fst st && test c, v')
    | None => Ok st
    end
  else Ok st.

(** version.py 183-196: the operators as tests on [compare]'s result. *)
Definition is_eq (c : Z) : bool := Z.eqb c 0.
Definition is_ge (c : Z) : bool := Z.leb 0 c.
Definition is_le (c : Z) : bool := Z.leb c 0.

(** dependency.py 49-66: Dependency.satisfies.  (The argument pkg_name is not used by
    the code.) *)
Definition satisfies (d : dependency) (pkg_name version release : string) : res bool :=
  v <- parse_version version ;;
  s1 <- check_bound is_eq (dep_version d) (true, v) ;;
  s2 <- check_bound is_ge (dep_versionFrom d) s1 ;;
  s3 <- check_bound is_le (dep_versionTo d) s2 ;;
  r <- parse_version release ;;
  t1 <- check_bound is_eq (dep_release d) (fst s3, r) ;;
  t2 <- check_bound is_ge (dep_releaseFrom d) t1 ;;
  t3 <- check_bound is_le (dep_releaseTo d) t2 ;;
  Ok (fst t3).
