From Coq Require Import String Ascii List Bool Arith Lia.
From stdpp Require Import gmap strings.
From Verif Require Import Model.Py Model.Package Model.InstallDB Model.Path Model.Fs Model.Contents Model.System Model.Ops Model.Pack
  Spec.PathSpec Spec.ContentsSpec Spec.FsSpec Spec.OpsSpec Spec.CheckSpec Spec.PackSpec
  Proof.PyFacts Proof.PathFacts Proof.ContentsFacts Proof.ContentsTop Proof.InstallDBFacts.
Open Scope string_scope.

Lemma mapM_map {A B} (f : A -> res B) (g : A -> B) l : (forall x, In x l -> f x = Ok (g x)) -> Py.mapM f l = Ok (map g l).
Proof.
  induction l as [|x l IH]; intros H; [reflexivity|]. cbn [Py.mapM map]. rewrite (H x (or_introl eq_refl)). cbn [bind].
  rewrite IH by (intros y Hy; apply H; now right). reflexivity.
Qed.
Lemma mapM_err {A B} (f : A -> res B) e0 l : (forall x e, f x = Err e -> e = e0) -> (exists x e, In x l /\ f x = Err e) -> Py.mapM f l = Err e0.
Proof.
  intros H. induction l as [|y l IH]; intros (x & e & Hx & E); [destruct Hx|]. cbn [Py.mapM]. destruct (f y) as [z|e1] eqn:F; cbn [bind].
  - destruct Hx as [->|Hx]; [congruence|]. rewrite IH by eauto. reflexivity.
  - now rewrite (H _ _ F).
Qed.

Lemma names_of_short f : f <> [] -> List.Forall good_name f -> names_of (short f) = f.
Proof.
  intros N F. pose proof (names_of_text f F) as K. rewrite text_short in K by exact N. unfold names_of in *.
  change ("/" ++ short f) with (String slash (short f)) in K. rewrite <- K at 2. clear K.
  change (String slash (short f)) with ("" ++ String slash (short f)). rewrite split_app. reflexivity.
Qed.
Lemma split_short f : f <> [] -> List.Forall good_name f -> py_split slash (short f) = f.
Proof. intros N F. destruct f as [|n f]; [congruence|]. inversion F as [|? ? [_ Fn] F']; subst. cbn [short]. now apply split_text. Qed.
Lemma above_short f g : f <> [] -> g <> [] -> List.Forall good_name f -> List.Forall good_name g -> above (short f) (short g) -> exists n r, g = (f ++ n :: r)%list.
Proof.
  intros Nf Ng Ff Fg [r E]. apply (f_equal (py_split slash)) in E. rewrite split_short in E by assumption.
  change (short f +:+ "/" +:+ r) with (short f ++ String slash r) in E. rewrite split_app, split_short in E by assumption.
  destruct (py_split slash r) as [|n l] eqn:S; [now apply split_nonempty in S|]. eauto.
Qed.

Definition entry_as (x : Contents.node) : Fs.entry :=
  match x with Contents.NFile c => AFile c | Contents.NLink g _ => ALink g | Contents.NDir _ => ADir end.
Lemma members_produced t f x : produced t f x -> forall name, members name x = [(name, entry_as x)] /\ stored x (entry_as x).
Proof. intros [_ P] name. destruct x as [c|g to|es]; cbn; try (split; [reflexivity|constructor]). rewrite (P es eq_refl). split; [reflexivity|constructor]. Qed.
Lemma stored_as x e : stored x e -> e = entry_as x.
Proof. now destruct 1. Qed.

Section built.
  Context (sha1 : string -> string) (install : string) (t : Contents.node) (pkgs : list (list pathinfo)).
  Context (Pd : proper_dir install) (W : well_formed t) (X : all_explicit pkgs) (U : unambiguous install t pkgs).
  Context (listed : gmap string fileinfo -> list (string * fileinfo)) (L : forall d, listed d ≡ₚ map_to_list d).
  Context (i : nat) (pkg : package) (fmt : format).

  Definition as_entry (kv : string * fileinfo) : finfo := mkFile kv.1 (default "" (gi_type kv.2)) (gi_hash kv.2) (gi_permanent kv.2).
  Definition as_data (kv : string * fileinfo) : list (string * Fs.entry) :=
    match find_node t (names_of kv.1) with Some x => [(kv.1, entry_as x)] | None => [] end.

  Lemma belongs_nonempty f : belongs t pkgs i f -> f <> [].
  Proof. intros (x & p & _ & Np & Cp & _). destruct Np as (pi & _ & (N & _)). destruct Cp as [r ->]. destruct p; [congruence|discriminate]. Qed.

  Section with_d.
    Context (d : gmap string fileinfo) (R : recorded sha1 t pkgs i (belongs t pkgs i) d).
    Lemma in_listed kv : In kv (listed d) <-> d !! kv.1 = Some kv.2.
    Proof. destruct kv as [k v]. rewrite <- elem_of_list_In, (L d), elem_of_map_to_list. reflexivity. Qed.
    Lemma listed_nodup : NoDup (map fst (listed d)).
    Proof. rewrite (L d). apply NoDup_fst_map_to_list. Qed.
    Lemma listed_knows kv : In kv (listed d) -> exists f x, kv.1 = short f /\ belongs t pkgs i f /\ produced t f x /\ right_info sha1 pkgs i f x kv.2 /\
      find_node t (names_of kv.1) = Some x.
    Proof.
      intros H. apply in_listed in H. destruct R as [R1 _]. destruct (R1 _ _ H) as (f & x & E & B & P & I). exists f, x.
      repeat (split; [assumption|]). rewrite E, names_of_short; [|now apply belongs_nonempty|exact (belongs_good t pkgs W i f B)].
      apply (find_lies t f x W). apply P.
    Qed.
    Lemma belongs_listed f : belongs t pkgs i f -> exists info, In (short f, info) (listed d).
    Proof. intros B. destruct R as [_ R2]. destruct (R2 f B) as [info H]. exists info. now apply in_listed. Qed.

    Lemma packed l : (forall kv, In kv l -> In kv (listed d)) -> Py.mapM (pack t) (map as_entry l) = Ok (map as_data l).
    Proof.
      intros S. assert (K : Py.mapM (pack t) (map as_entry l) = Ok (map (fun fi => match pack t fi with Ok r => r | Err _ => [] end) (map as_entry l))).
      { apply mapM_map. intros fi Hf. apply in_map_iff in Hf as (kv & <- & Hk). destruct (listed_knows kv (S _ Hk)) as (f & x & _ & _ & _ & _ & F). unfold pack, as_entry. cbn [f_path]. now rewrite F. }
      rewrite K. f_equal. rewrite map_map. apply map_ext_in. intros kv Hk. destruct (listed_knows kv (S _ Hk)) as (f & x & _ & _ & P & _ & F).
      unfold pack, as_entry, as_data. cbn [f_path]. rewrite F. apply (members_produced t f x P).
    Qed.
    Definition the_package : pkgfile := mkPackfile pkg (map as_entry (listed d)) (concat (map as_data (listed d))) fmt.
    Lemma in_data p e : In (p, e) (k_data the_package) <-> exists kv x, In kv (listed d) /\ p = kv.1 /\ find_node t (names_of kv.1) = Some x /\ e = entry_as x.
    Proof.
      cbn [the_package k_data]. rewrite <- flat_map_concat_map, in_flat_map. split.
      - intros (kv & Hk & Hp). unfold as_data in Hp. destruct (find_node t (names_of kv.1)) as [x|] eqn:F; [|destruct Hp]. destruct Hp as [[= <- <-]|[]]. exists kv, x. auto.
      - intros (kv & x & Hk & -> & F & ->). exists kv. split; [exact Hk|]. unfold as_data. rewrite F. now left.
    Qed.
    Lemma data_exact : holds_exactly t pkgs i the_package.
    Proof.
      intros p e. rewrite in_data. split.
      - intros (kv & x & Hk & -> & F & ->). destruct (listed_knows kv Hk) as (f & y & E & B & P & _ & F'). assert (y = x) as -> by congruence.
        exists f, x. split; [exact E|]. split; [exact B|]. split; [apply P|]. apply (members_produced t f x P "").
      - intros (f & x & -> & B & Lx & S). destruct (belongs_listed f B) as [info H]. exists (short f, info), x. split; [exact H|]. split; [reflexivity|]. split; [|now apply stored_as].
        cbn [fst]. rewrite names_of_short; [now apply find_lies|now apply belongs_nonempty|exact (belongs_good t pkgs W i f B)].
    Qed.
    Lemma data_names : map fst (k_data the_package) = map fst (listed d).
    Proof.
      cbn [the_package k_data]. rewrite concat_map, map_map. assert (K : forall l, (forall kv, In kv l -> In kv (listed d)) -> concat (map (fun kv => map fst (as_data kv)) l) = map fst l).
      { induction l as [|kv l IH]; intros S; [reflexivity|]. cbn [map concat]. rewrite IH by (intros z Hz; apply S; now right).
        destruct (listed_knows kv (S _ (or_introl eq_refl))) as (f & x & _ & _ & _ & _ & F). unfold as_data. now rewrite F. }
      now apply K.
    Qed.
    Lemma file_names : map f_path (k_files the_package) = map fst (listed d).
    Proof. cbn [the_package k_files]. rewrite map_map. reflexivity. Qed.
    Lemma in_order_built : no_side_names t -> in_order the_package.
    Proof.
      intros NS. split; [rewrite file_names; apply listed_nodup|]. split; [rewrite data_names; apply listed_nodup|].
      assert (G : forall f, belongs t pkgs i f -> relative_path (short f) /\ ~ side_name (short f)).
      { intros f B. split; [apply short_relative; [now apply belongs_nonempty|exact (belongs_good t pkgs W i f B)]|]. destruct B as (x & p & P & _). exact (NS f x P). }
      split; [|split].
      - intros fi Hf. cbn [the_package k_files] in Hf. apply in_map_iff in Hf as (kv & <- & Hk). destruct (listed_knows kv Hk) as (f & x & E & B & _). cbn [as_entry f_path]. rewrite E. now apply G.
      - intros p e Hp. apply data_exact in Hp as (f & x & -> & B & _). now apply G.
      - intros p e p' e' Hp Hp' A. apply data_exact in Hp as (f & x & -> & B & Lx & S). apply data_exact in Hp' as (g & y & -> & B' & Ly & _).
        destruct (above_short f g) as (n & r & ->); [now apply belongs_nonempty|now apply belongs_nonempty|exact (belongs_good t pkgs W i f B)|exact (belongs_good t pkgs W i g B')|exact A|].
        apply lies_split in Ly as (z & Lz & Ly). assert (z = x) as -> by exact (lies_fun _ _ _ _ W Lz Lx). inversion Ly; subst. now inversion S.
    Qed.
    Lemma truthful_built : truthful sha1 the_package.
    Proof.
      intros fi Hf [(hs & Hh & _) _]. cbn [the_package k_files] in Hf. apply in_map_iff in Hf as (kv & <- & Hk). destruct (listed_knows kv Hk) as (f & x & E & B & P & I & F).
      cbn [as_entry f_path f_hash] in *. destruct I as (p & pi & _ & _ & _ & _ & Fp).
      assert (D : In (kv.1, entry_as x) (k_data the_package)) by (apply in_data; eauto 6).
      inversion Fp as [c Ec Eh|g to Ec Eh|g c Ec Eh|es Ec Eh]; subst x; cbn [entry_as] in D.
      - left. exists c. split; [exact D|reflexivity].
      - right. now exists g.
      - right. now exists g.
      - congruence.
    Qed.
    Lemma lists_built : (forall kv, In kv (listed d) -> exists ty, gi_type kv.2 = Some ty) -> lists_exactly sha1 t pkgs i the_package.
    Proof.
      intros T. split.
      - intros fi Hf. cbn [the_package k_files] in Hf. apply in_map_iff in Hf as (kv & <- & Hk). destruct (listed_knows kv Hk) as (f & x & E & B & P & (p & pi & N & Fe & Et & Ep & Fp) & _).
        exists f. split; [exact B|]. exists x, p, pi. destruct (T kv Hk) as [ty Ty]. cbn [as_entry f_path f_type f_permanent f_hash]. rewrite Ty in *.
        repeat (split; [solve [auto | apply P]|]). exact Fp.
      - intros f B. destruct (belongs_listed f B) as [info H]. exists (as_entry (short f, info)). split; [|reflexivity]. cbn [the_package k_files]. apply in_map_iff. eauto.
    Qed.
  End with_d.

  Definition typed (kv : string * fileinfo) : Prop := exists ty, gi_type kv.2 = Some ty /\ ty <> "".
  Lemma file_entry_typed kv : typed kv -> file_entry kv = Ok (as_entry kv).
  Proof. intros (ty & E & N). unfold file_entry, as_entry. rewrite E. destruct ty; [congruence|reflexivity]. Qed.
  Lemma file_entry_err kv e : file_entry kv = Err e -> e = EError.
  Proof. unfold file_entry. destruct (gi_type kv.2) as [[|]|]; congruence. Qed.
  Lemma typed_dec kv : typed kv \/ (gi_type kv.2 = None \/ gi_type kv.2 = Some "").
  Proof. unfold typed. destruct (gi_type kv.2) as [[|a s]|]; [auto| |auto]. left. eexists. split; [reflexivity|discriminate]. Qed.

  (** The nearest path, and its first entry, are unique *)
  Lemma nearest_fun f p q : nearest pkgs i f p -> nearest pkgs i f q -> p = q.
  Proof. intros (Np & Cp & Mp) (Nq & Cq & Mq). apply covers_antisym; auto. Qed.
  Lemma first_fun p a b : first_entry pkgs i p a -> first_entry pkgs i p b -> a = b.
  Proof.
    intros (l & b1 & a1 & N1 & E1 & P1 & F1) (l' & b2 & a2 & N2 & E2 & P2 & F2). rewrite N1 in N2. injection N2 as <-. subst l.
    clear N1. revert b2 E2 F2. induction b1 as [|x b1 IH]; intros [|y b2] E2 F2; cbn in E2.
    - congruence.
    - injection E2 as <- _. now destruct (F2 a (or_introl eq_refl)).
    - injection E2 as -> _. now destruct (F1 b (or_introl eq_refl)).
    - injection E2 as <- E2. apply (IH (fun pj H => F1 pj (or_intror H)) b2 E2). intros pj H. apply F2. now right.
  Qed.

  Lemma build_cases : (~ untyped t pkgs i /\ exists k, build_package sha1 install t listed pkgs i pkg fmt = Ok k /\ k_pkg k = pkg /\ k_format k = fmt /\
      holds_exactly t pkgs i k /\ lists_exactly sha1 t pkgs i k /\ truthful sha1 k /\ (no_side_names t -> in_order k)) \/
    (untyped t pkgs i /\ build_package sha1 install t listed pkgs i pkg fmt = Err EError).
  Proof.
    destruct (gen_files_spec sha1 install t Pd W pkgs X U i) as (d & E & R). unfold build_package. rewrite E. cbn [bind].
    assert (D : (forall kv, In kv (listed d) -> typed kv) \/ exists kv, In kv (listed d) /\ (gi_type kv.2 = None \/ gi_type kv.2 = Some "")).
    { generalize (listed d). intros l. induction l as [|kv l [IH|(y & Hy & K)]]; [left; intros ? []| |right; exists y; split; [now right|exact K]].
      destruct (typed_dec kv) as [T|T]; [left; intros z [<-|Hz]; auto|right; exists kv; split; [now left|exact T]]. }
    destruct D as [T|(kv & Hk & T)].
    - left. split.
      + intros (f & p & pi & B & N & Fe & Ty). destruct (belongs_listed d R f B) as [info H]. destruct (T _ H) as (ty & Ety & Nty). cbn [snd] in Ety.
        destruct (listed_knows d R _ H) as (g & x & Es & B' & _ & (q & pj & N' & Fe' & Et & _) & _). cbn [fst snd] in *.
        apply short_inj in Es; [|exact (belongs_good t pkgs W i f B)|exact (belongs_good t pkgs W i g B')]. subst g.
        rewrite (nearest_fun f p q N N') in *. rewrite (first_fun q pi pj Fe Fe') in *. destruct Ty; congruence.
      + rewrite (mapM_map file_entry as_entry) by (intros kv Hk; now apply file_entry_typed, T). cbn [bind].
        rewrite (packed d R (listed d) (fun _ H => H)). cbn [bind]. exists (the_package d). split; [reflexivity|]. split; [reflexivity|]. split; [reflexivity|].
        split; [now apply data_exact|]. split; [apply lists_built; [exact R|]; intros kv Hk; destruct (T kv Hk) as (ty & Ety & _); eauto|]. split; [now apply truthful_built|now apply in_order_built].
    - right. split.
      + destruct (listed_knows d R kv Hk) as (f & x & Es & B & _ & (q & pj & N & Fe & Et & _) & _). exists f, q, pj. rewrite <- Et. auto.
      + rewrite (mapM_err file_entry EError); [reflexivity|exact file_entry_err|]. exists kv, EError. split; [exact Hk|]. unfold file_entry. destruct T as [->| ->]; reflexivity.
  Qed.
End built.

Lemma built_flat t pkgs i k : well_formed t -> holds_exactly t pkgs i k -> nothing_nested (k_data k).
Proof.
  intros W H p e p' e' Hp Hp' A. apply H in Hp as (f & x & -> & B & Lx & S). apply H in Hp' as (g & y & -> & B' & Ly & _).
  destruct (above_short f g) as (n & r & ->); [now apply (belongs_nonempty t pkgs i)|now apply (belongs_nonempty t pkgs i)|exact (belongs_good t pkgs W i f B)|exact (belongs_good t pkgs W i g B')|exact A|].
  apply lies_split in Ly as (z & Lz & Ly). assert (z = x) as -> by exact (lies_fun _ _ _ _ W Lz Lx). inversion Ly; subst. inversion S; subst. match goal with K : In _ [] |- _ => destruct K end.
Qed.
