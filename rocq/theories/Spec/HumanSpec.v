(** * What a size shown with its unit says *)
From Coq Require Import String ZArith QArith List.
From Verif Require Import Model.Human.
Import ListNotations.
Open Scope string_scope.

(** the number itself *)
Definition value (n : num) : Q := match n with PInt z => inject_Z z | PFloat q => q end.

(** the units and their bytes *)
Inductive unit_bytes : string -> Z -> Prop :=
  | u_byte : unit_bytes " B" 1
  | u_kilo : unit_bytes "KB" 1024
  | u_mega : unit_bytes "MB" (1024 * 1024)
  | u_giga : unit_bytes "GB" (1024 * 1024 * 1024).

(** [n] with the unit [u] says [bytes] *)
Definition says (n : num) (u : string) (bytes : Q) : Prop :=
  exists k, unit_bytes u k /\ (value n * inject_Z k == bytes)%Q.

(** The number is at most 1000, unless there is no larger unit; and in the unit before, if there is
    one, it would be more than 1000. *)
Definition fitting (n : num) (u : string) : Prop :=
  ((value n <= inject_Z 1000)%Q \/ u = "GB") /\ (u = " B" \/ (inject_Z 1000 < value n * inject_Z 1024)%Q).

(** The unit of a whole number of bytes, by the number of whole kilobytes in it. *)
Definition unit_for (z : Z) (u : string) : Prop :=
  (u = " B" <-> z <= 1000)%Z /\
  (u = "KB" <-> 1000 < z < 1001 * 1024)%Z /\
  (u = "MB" <-> 1001 * 1024 <= z < (1000 * 1024 + 1) * 1024)%Z /\
  (u = "GB" <-> (1000 * 1024 + 1) * 1024 <= z)%Z.
