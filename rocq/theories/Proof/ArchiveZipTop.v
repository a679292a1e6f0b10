(** * Zip archives: the round trip *)
From Coq Require Import String Ascii ZArith NArith List Bool Lia.
From stdpp Require Import gmap strings.
From Verif Require Import Model.Py Model.InstallDB Model.Path Model.Fs Model.Trace Model.Actions Model.Index Model.Archive Spec.PathSpec Spec.FsSpec Spec.ActionsSpec Spec.ArchiveSpec.
From Verif Require Import Proof.PyFacts Proof.InstallDBFacts Proof.PathFacts Proof.FsFacts Proof.TraceFacts Proof.ActionsPaths Proof.ActionsFacts Proof.ActionsTop Proof.ActionsExact Proof.ActionsMove Proof.ArchiveFacts Proof.ArchiveTree Proof.ArchiveTrip Proof.ArchiveZip.
Import ListNotations.
Open Scope string_scope.
Open Scope prog_scope.

Lemma blank_end s n : n <> "" -> ends_blank (s ++ "/" ++ n) <-> ends_blank n.
Proof.
  intros N. split.
  - intros (r & c & E & B). destruct (str_snoc_cases n) as [->|(n' & c' & ->)]; [congruence|]. exists n', c'. split; [reflexivity|].
    rewrite <- !str_app_assoc in E. assert (K : forall a b x y, a ++ String x "" = b ++ String y "" -> x = y).
    { clear. induction a as [|z a IH]; intros b x y E.
      - destruct b as [|w b]; [now injection E|]. injection E as _ E. destruct b; discriminate E.
      - destruct b as [|w b]; [injection E as _ E; destruct a; discriminate E|]. injection E as _ E. exact (IH b x y E). }
    apply K in E. now subst.
  - intros (r & c & -> & B). exists (s ++ "/" ++ r), c. split; [now rewrite !str_app_assoc|exact B].
Qed.
Lemma one_below r x : r <> "/" -> r <> "" -> below r [x] = r ++ "/" ++ x.
Proof. intros A B. rewrite below_text by (assumption || discriminate). reflexivity. Qed.

Lemma nil_or_not {A} (l : list A) : l = [] \/ l <> [].
Proof. destruct l; [now left|now right]. Qed.

Section zip.
  Context (d : disk) (C : string) (SC : stands (nodes d) C) (Rd : real (nodes d)) (order : string -> list string -> list string) (Or : any_listing order) (n : nat).
  Context (xs : list string) (Tp : to_pack d C xs).
  Notation pack := (Py.mapM (fun x => add_to_archive C order n d x "") xs).
  Lemma cx x : below C [x] = C ++ "/" ++ x.
  Proof. apply one_below; [apply (C1 d C SC)|apply (C2 d C SC)]. Qed.
  Lemma pack_all : paths_shorter d n -> exists As, pack = Ok As.
  Proof.
    intros L. destruct Tp as [_ H]. induction xs as [|x l IH]; [now exists []|]. destruct IH as [As IH]; [split; [destruct Tp as [T _]; now inversion T|intros y I; apply H; now right]|intros y I; apply H; now right|].
    destruct (H x (or_introl eq_refl)) as [Nx Px]. rewrite <- cx in Px. destruct (pack_ok d C SC Rd order Or n [x]) as [A QA]; [discriminate|intros y [<-|[]]; exact Nx|exact Px|intros q Q; specialize (L q Q); lia|].
    exists (A :: As). cbn [Py.mapM]. cbn [String.concat] in QA. rewrite QA, IH. reflexivity.
  Qed.
  Context (As : list (list member)) (Q : pack = Ok As).
  Lemma tops : Forall2 (fun x => packed zdir zfile zlink d C n [x]) xs As.
  Proof.
    pose proof Q as K. apply mapM_ok in K. destruct Tp as [_ H]. clear Tp Q. induction K as [|x A l As0 K1 K2 IK]; constructor.
    - destruct (H x (or_introl eq_refl)) as [Nx [Px _]]. rewrite <- cx in Px. apply (pack_packed d C SC Rd order Or n [x] A); [discriminate|intros y [<-|[]]; exact Nx|exact Px|exact K1].
    - apply IK. intros y I. apply H. now right.
  Qed.
  Lemma from_tops {M} (P : string -> list M -> Prop) l Bs m : Forall2 P l Bs -> In m (concat Bs) -> exists x B, In x l /\ P x B /\ In m B.
  Proof.
    intros F I. induction F as [|x B l' Bs' F1 F2 IF]; [destruct I|]. cbn [concat] in I. apply in_app_iff in I as [I|I]; [exists x, B; split; [now left|now split]|]. destruct (IF I) as (y & B' & Iy & R). exists y, B'. split; [now right|exact R].
  Qed.
  Lemma from_top m : In m (concat As) -> exists x, In x xs /\ name x /\ described d C [x] m.
  Proof.
    intros I. destruct (from_tops _ _ _ m tops I) as (x & A & Ix & P & Im). exists x. split; [exact Ix|]. split; [now apply Tp|]. exact (packed_described d C n [x] A P m Im).
  Qed.

  Context (cwd root : string) (umask : N) (Td : forall x, In x xs -> tidy d (C ++ "/" ++ x)) (Rb : ~ ends_blank root).
  Context (pre : list string) (Hpre : forall x, In x pre -> name x).
  Notation aroot := (String.concat "/" pre).
  Lemma out_of ns t : (forall x, In x ns -> name x) -> ns <> [] -> t = String.concat "/" (pre ++ ns) \/ t = String.concat "/" (pre ++ ns) ++ "/" -> out_path aroot t = Some (match pre with [] => t | _ => String.concat "/" ns end).
  Proof.
    intros H N T. unfold out_path. destruct pre as [|p0 pr] eqn:Ep; [reflexivity|]. rewrite <- Ep in *. assert (Np : pre <> []) by (rewrite Ep; discriminate). rewrite (proj2 (String.eqb_neq _ _) (concat_ne pre Np Hpre)).
    assert (Ns : (pre ++ ns)%list <> []) by (rewrite Ep; discriminate). assert (Hs : forall x, In x (pre ++ ns) -> name x) by (apply names_app; now split).
    rewrite (proj2 (subpath_concat pre (pre ++ ns) t Np Ns Hpre Hs T)) by now exists ns. rewrite (removepathprefix_concat pre ns t Np Hpre H T). reflexivity.
  Qed.
  Lemma join_below f ns : stands f root -> ns <> [] -> (forall x, In x ns -> name x) -> os_join root (String.concat "/" ns) = below root ns.
  Proof.
    intros S N H. destruct (stands_root root _ S) as (_ & R1 & R2 & R3). unfold os_join. rewrite concat_relative, (proj2 (String.eqb_neq _ _) R2) by exact H. replace (py_endswith root "/") with false by (symmetry; apply not_true_iff_false; intros E; apply R3; apply endswith_iff in E; exact E). cbn [orb]. now rewrite below_text.
  Qed.
  Lemma join_below_slash f ns : stands f root -> ns <> [] -> (forall x, In x ns -> name x) -> os_join root (String.concat "/" ns ++ "/") = below root ns ++ "/".
  Proof.
    intros S N H. destruct (stands_root root _ S) as (_ & R1 & R2 & R3). unfold os_join. replace (py_startswith (String.concat "/" ns ++ "/") "/") with false.
    - rewrite (proj2 (String.eqb_neq _ _) R2). replace (py_endswith root "/") with false by (symmetry; apply not_true_iff_false; intros E; apply R3; apply endswith_iff in E; exact E). cbn [orb]. rewrite below_text by assumption. now rewrite !str_app_assoc.
    - symmetry. apply not_true_iff_false. intros E. pose proof (concat_relative ns H) as K. pose proof (concat_ne ns N H) as K'. destruct (String.concat "/" ns) as [|c r]; [congruence|]. apply startswith_iff in E as [u E]. injection E as -> _. rewrite (proj2 (startswith_iff _ _)) in K; [discriminate K|now exists r].
  Qed.
  Notation src ns := (below C (pre ++ ns)).
  Notation whole := (concat As).
  Lemma file_out ns t : t = String.concat "/" (pre ++ ns) -> (forall x, In x ns -> name x) -> ns <> [] -> out_path aroot t = Some (String.concat "/" ns).
  Proof. intros T H N. rewrite (out_of ns t H N (or_introl T)). destruct pre; [now rewrite T|reflexivity]. Qed.
  Lemma blank_free ns a x m : ns = (a ++ [x])%list -> (forall x, In x ns -> name x) -> nodes d !! src ns <> None -> In m whole -> m_name m = String.concat "/" (pre ++ ns) -> ~ ends_blank (below root a) \/ root = "/" \/ root = "".
  Proof.
    intros E H K I Mn. destruct (String.eqb_spec root "/") as [->|R1]; [tauto|]. destruct (String.eqb_spec root "") as [->|R2]; [tauto|]. left.
    destruct (nil_or_not a) as [->|Na]; [exact Rb|]. destruct (exists_last Na) as (a' & z & Ez).
    assert (Ha : forall x, In x a -> name x) by (intros y J; apply H; rewrite E, in_app_iff; now left). assert (Nz : name z) by (apply Ha; rewrite Ez, in_app_iff; right; now left).
    destruct (from_top m I) as (x0 & Ix & Nx & ks & Hk & De).
    assert (Hs : forall x, In x (pre ++ ns) -> name x) by (apply names_app; now split). assert (Ns : (pre ++ ns)%list <> []) by (rewrite E; destruct pre; [destruct a|]; discriminate).
    assert (Hd : forall x, In x ([x0] ++ ks) -> name x) by (apply names_app; split; [intros y [<-|[]]; exact Nx|exact Hk]).
    assert (Ek : (pre ++ ns)%list = ([x0] ++ ks)%list).
    { destruct De as [[_ ->]|[(c & _ & ->)|(t & _ & ->)]].
      - exfalso. cbn [m_name zdir] in Mn. pose proof (concat_endswith (pre ++ ns) Ns Hs) as X. rewrite <- Mn in X. assert (Y : py_endswith (String.concat "/" ([x0] ++ ks) ++ "/") "/" = true) by (apply endswith_iff; now eexists). congruence.
      - cbn [m_name zfile] in Mn. symmetry. now apply concat_inj; try discriminate.
      - cbn [m_name zlink] in Mn. symmetry. now apply concat_inj; try discriminate. }
    pose proof (real_dirs d C SC Rd (pre ++ ns) Ns Hs K) as D. assert (Da : nodes d !! src a = Some NDir) by (apply (D (pre ++ a)%list [x]); [now rewrite E, app_assoc|destruct pre; [exact Na|discriminate]|discriminate]).
    assert (J : at_or_in (C ++ "/" ++ x0) (src a)).
    { destruct (pre ++ a)%list as [|w ws] eqn:W; [destruct pre; [cbn in W; congruence|discriminate W]|]. assert (w = x0) by (rewrite E, app_assoc, W in Ek; now injection Ek). subst w. rewrite child_below. change (child C x0) with (below C [x0]). rewrite cx. destruct (nil_or_not ws) as [->|Nw]; [left; reflexivity|]. right.
      exists (String.concat "/" ws). apply below_text; [| |exact Nw]; intros X; apply (f_equal String.length) in X; rewrite !str_app_length in X; destruct Nx as (Nx & _); destruct x0; try congruence; destruct C; cbn in X; try lia; now apply (C2 d _ SC). }
    pose proof (Td x0 Ix (src a) J Da) as B. rewrite Ez in B |- *. rewrite app_assoc in B. rewrite below_child in B by first [apply (C1 d C SC)|apply (C2 d C SC)]. rewrite below_child by assumption. destruct Nz as (Nz & _). rewrite blank_end in B by exact Nz. now rewrite blank_end.
  Qed.

  Notation one := (unpack_member cwd umask whole root aroot).
  Lemma endswith_not ns : ns <> [] -> (forall x, In x ns -> name x) -> py_endswith (String.concat "/" (pre ++ ns)) "/" = false.
  Proof. intros N H. apply concat_endswith; [destruct pre; [exact N|discriminate]|apply names_app; now split]. Qed.
  Lemma read_one m : In m whole -> py_endswith (m_name m) "/" = false -> zip_read whole (m_name m) = m_data m.
  Proof. apply (read_back d C). intros m' I'. destruct (from_top m' I') as (y & _ & Ny & Dy). now exists y. Qed.
  Lemma zip_dir e ns : ready root e ns -> nodes d !! src ns = Some NDir -> In (zdir (pre ++ ns) (mode_of d (src ns))) whole ->
    does (one (zdir (pre ++ ns) (mode_of d (src ns)))) e (fun e' => adds root e e' ns NDir (zip_dir_mode (zdir [] (mode_of d (src ns))))).
  Proof.
    intros (S & H & N & D & E) X I. set (m := zdir (pre ++ ns) (mode_of d (src ns))) in *.
    apply (unpack_dir_fresh cwd root umask e ns S H N D E whole aroot m _ (out_of ns (m_name m) H N (or_intror eq_refl))).
    - apply endswith_iff. now exists (String.concat "/" (pre ++ ns)).
    - unfold spells. destruct pre; [right; now apply (join_below_slash (nodes e))|left; now apply (join_below (nodes e))].
  Qed.
  Lemma zip_link e ns t : ready root e ns -> nodes d !! src ns = Some (NLink t) -> In (zlink (pre ++ ns) t) whole ->
    does (one (zlink (pre ++ ns) t)) e (fun e' => adds root e e' ns (NLink t) 0).
  Proof.
    intros (S & H & N & D & E) X I. set (m := zlink (pre ++ ns) t) in *. destruct (exists_last N) as (a & x & Ea).
    assert (Rr : zip_read whole (m_name m) = t) by exact (read_one m I (endswith_not ns N H)).
    rewrite <- Rr. apply (unpack_link_fresh cwd root umask e ns S H N D E whole aroot m _ (file_out ns (m_name m) eq_refl H N) (endswith_not ns N H) (join_below _ ns S N H) a x Ea); [|reflexivity].
    destruct (stands_root root _ S) as (_ & R1 & R2 & _). destruct (blank_free ns a x m Ea H) as [B|[B|B]]; [rewrite X; discriminate|exact I|reflexivity|exact B|congruence|congruence].
  Qed.
  Lemma zip_file e ns c : ready root e ns -> nodes d !! src ns = Some (NFile c) -> In (zfile (pre ++ ns) (mode_of d (src ns)) c) whole ->
    does (one (zfile (pre ++ ns) (mode_of d (src ns)) c)) e (fun e' => adds root e e' ns (NFile c) (zip_mode (zfile [] (mode_of d (src ns)) ""))).
  Proof.
    intros (S & H & N & D & E) X I. set (m := zfile (pre ++ ns) (mode_of d (src ns)) c) in *. destruct (exists_last N) as (a & x & Ea).
    assert (Rr : zip_read whole (m_name m) = c) by exact (read_one m I (endswith_not ns N H)).
    assert (G : does (one m) e (fun e' => adds root e e' ns (NFile (zip_read whole (m_name m))) (zip_mode m))); [|rewrite Rr in G; exact G]. apply (unpack_file_fresh cwd root umask e ns S H N D E whole aroot m _ (file_out ns (m_name m) eq_refl H N) (endswith_not ns N H) (join_below _ ns S N H) a x Ea); [|apply file_not_link].
    destruct (stands_root root _ S) as (_ & R1 & R2 & _). destruct (blank_free ns a x m Ea H) as [B|[B|B]]; [rewrite X; discriminate|exact I|reflexivity|exact B|congruence|congruence].
  Qed.
  Lemma zip_tops k ys Bs e : Forall2 (fun y => packed zdir zfile zlink d C k (pre ++ [y])) ys Bs -> incl (concat Bs) whole -> List.NoDup ys -> (forall y, In y ys -> name y) -> stands (nodes e) root -> (forall y, In y ys -> nothing_at e (below root [y])) ->
    does (each one (concat Bs)) e (fun e' => stands (nodes e') root /\ (forall y, In y ys -> copied zip_file_keeps zip_dir_keeps d e' (src [y]) (below root [y])) /\ forall q, (forall y, In y ys -> ~ at_or_in (below root [y]) q) -> same_at e e' q).
  Proof.
    apply (unpack_tops zdir zfile zlink d C SC Rd root pre Hpre one whole zip_file_keeps zip_dir_keeps (fun m => zip_mode (zfile [] m "")) (fun m => zip_dir_mode (zdir [] m))).
    - intros m. apply zip_file_mode.
    - intros m. apply zip_directory_mode.
    - exact zip_dir.
    - exact zip_file.
    - exact zip_link.
  Qed.
End zip.
