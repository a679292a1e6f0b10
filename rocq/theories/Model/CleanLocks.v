(** * pisi clean: pisi/cli/clean.py 41-44, pisi/util/fs.py 348-354

    Simplified: the directory "." is written as the path of the current directory; os.listdir gives
    the paths of Model/Fs.v.  The message printed for each lock is left out (its argument goes to
    the parameter verbose, and the lock is not named). *)
From Coq Require Import String List Bool Arith.
From stdpp Require Import gmap strings.
From Verif Require Import Model.Py Model.InstallDB Model.Path Model.Fs Model.Trace.
Import ListNotations.
Open Scope string_scope.
Open Scope prog_scope.

(** os.unlink *)
Definition unlink_now (p : string) : prog fs unit :=
  f <~ ask (fun f => f) ;;
  match unlink f p with Ok g => change (fun _ => g) | Err e => raise e end.

(** util/fs.py 350-354 *)
Definition clean_file (p : string) : prog fs unit :=
  if py_endswith (basename p) ".lock" then unlink_now p else ret tt.

(** util/fs.py 349-354 with os.walk: a directory that cannot be listed is passed over, links to
    directories are among the directories and are not entered; [n] bounds the depth *)
Fixpoint clean_walk (n : nat) (top : string) : prog fs unit :=
  match n with
  | O => raise EFuel
  | S n =>
      f <~ ask (fun f => f) ;;
      match listdir f top with
      | Err _ => ret tt
      | Ok l =>
          _ <~ each clean_file (List.filter (fun p => negb (isdir f p)) l) ;;
          each (fun d => g <~ ask (fun g => g) ;; if islink g d then ret tt else clean_walk n d) (List.filter (isdir f) l)
      end
  end.

(** clean.py 43 calls clean_locks without an argument: [top] is the current directory *)
Definition clean_locks (cwd : string) : prog fs unit :=
  f <~ ask (fun f => f) ;;
  clean_walk (S (list_max (map (fun kv => String.length (fst kv)) (map_to_list f)))) cwd.
