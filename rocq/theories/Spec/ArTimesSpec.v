(** * Archives of object code, as ar(5) describes them *)
From Coq Require Import String Ascii ZArith List Bool.
From Verif Require Import Model.Py.
Import ListNotations.

(** One member: the fields of its header, and its data with the padding *)
Record member := mkMember {
  m_name : list ascii;
  m_date : list ascii;
  m_owner : list ascii;     (* user, group, mode *)
  m_size : list ascii;
  m_data : list ascii
}.
Definition header (m : member) : list ascii := (m_name m ++ m_date m ++ m_owner m ++ m_size m ++ ["`"%char; newline])%list.
Definition magic : list ascii := list_ascii_of_string "!<arch>" ++ [newline].
Definition archive (ms : list member) : list ascii := (magic ++ concat (map (fun m => header m ++ m_data m) ms))%list.

(** A header as GNU ar writes it: fields of fixed width on one line, a slash after the name, a size
    that does not fill its field *)
Record regular (m : member) : Prop := {
  r_name : length (m_name m) = 16 /\ In "/"%char (m_name m);
  r_date : length (m_date m) = 12;
  r_owner : length (m_owner m) = 20;
  r_size : exists digits, length digits = 9 /\ m_size m = (digits ++ [" "%char])%list;
  r_line : ~ In newline (m_name m ++ m_date m ++ m_owner m ++ m_size m)
}.
(** The two bytes blank, backquote are nowhere in [s] *)
Definition no_mark (s : list ascii) : Prop := forall a b, s <> (a ++ [" "%char; "`"%char] ++ b)%list.

(** The same member, of the year 1970 *)
Definition undated (m : member) : member :=
  mkMember (m_name m) (repeat "0"%char 10 ++ skipn 10 (m_date m)) (m_owner m) (m_size m) (m_data m).
