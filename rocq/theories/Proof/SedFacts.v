(** * Editing files: lemmas *)
From Coq Require Import String Ascii ZArith List Bool Lia.
From stdpp Require Import gmap strings.
From Verif Require Import Model.Py Model.InstallDB Model.Path Model.Fs Model.Trace Model.Actions Model.Pipes Model.Sed
  Spec.PathSpec Spec.FsSpec Spec.ActionsSpec Spec.PipesSpec Spec.SedSpec
  Proof.PyFacts Proof.PathFacts Proof.FsFacts Proof.TraceFacts Proof.ActionsPaths Proof.ActionsFacts Proof.ActionsTop Proof.ActionsExact Proof.PipesFacts Proof.ManualFacts Proof.ManualNew.
Import ListNotations.
Open Scope string_scope.
Open Scope prog_scope.

(** ** Lines *)
Lemma join_concat l : Pipes.join l = String.concat "" l.
Proof.
  assert (K : forall s, fold_left append l s = s ++ String.concat "" l); [|exact (K "")]. induction l as [|x l IH]; intros s; cbn [fold_left]; [now rewrite str_app_nil_r|]. rewrite IH. destruct l as [|y l]; [cbn; now rewrite str_app_nil_r|]. now rewrite str_app_assoc.
Qed.
Lemma concat_cons x l : String.concat "" (x :: l) = x ++ String.concat "" l.
Proof. destruct l; [cbn; now rewrite str_app_nil_r|reflexivity]. Qed.
Lemma text_lines_cat c ls : text_lines c ls -> Pipes.cat c = ls.
Proof.
  intros (-> & a & r & -> & Ha & Hr). unfold Pipes.cat. induction a as [|l a IH].
  - destruct Hr as [->|(x & -> & Nx & Fx)]; [reflexivity|]. cbn [app String.concat]. clear -Nx Fx.
    assert (K : forall s cur, free_of nl s -> lines_from cur s = if String.eqb (cur ++ s) "" then [] else [cur ++ s]).
    { induction s as [|y s IH]; intros cur F; cbn [lines_from]; [now rewrite str_app_nil_r|]. destruct (Ascii.eqb_spec y nl) as [->|Ny]; [exfalso; apply F; now left|]. rewrite IH by (intros I; apply F; now right). now rewrite str_app_assoc. }
    rewrite K by exact Fx. change ("" ++ x) with x. destruct (String.eqb_spec x ""); [congruence|reflexivity].
  - cbn [app]. rewrite concat_cons. destruct (Ha l (or_introl eq_refl)) as (t & -> & Ft). rewrite str_app_assoc. change (String "010" "" ++ String.concat "" (a ++ r)) with (String nl (String.concat "" (a ++ r))).
    rewrite (lines_line t _ "" Ft). cbn [append]. f_equal. apply IH. intros x I. apply Ha. now right.
Qed.
Section sed.
  Context (cwd : string) (expand : fs -> string -> list string) (sub : string -> option string).
  Lemma sub_lines_ok ls outs : Forall2 (fun l o => sub l = Some o) ls outs -> sub_lines sub ls = Some outs.
  Proof. induction 1 as [|x y l r E _ IH]; [reflexivity|]. cbn [sub_lines]. now rewrite E, IH. Qed.
  Lemma edited_ok c c' : edited sub c c' -> exists out, sub_lines sub (Pipes.cat c) = Some out /\ Pipes.join out = c'.
  Proof. intros (ls & outs & T & F & ->). exists outs. rewrite (text_lines_cat c ls T). split; [now apply sub_lines_ok|apply join_concat]. Qed.

  (** ** One file *)
  Lemma bak_name n : name n -> name (n ++ ".bak").
  Proof.
    intros (N & _ & _ & F). split; [destruct n; discriminate|]. split; [|split].
    - destruct n as [|x [|y n]]; [congruence|discriminate|]. destruct n as [|z [|w n]]; discriminate.
    - destruct n as [|x [|y n]]; [congruence|discriminate|]. intros E. injection E as _ _ E. destruct n; discriminate.
    - intros I. rewrite los_app, in_app_iff in I. destruct I as [I|I]; [now apply F|]. cbn in I. destruct I as [I|[I|[I|[I|[]]]]]; discriminate I.
  Qed.
  Lemma bak_place d n : below d [n ++ ".bak"] = below d [n] ++ ".bak".
  Proof. cbn [below]. unfold child. destruct (String.eqb d "/"); now rewrite ?str_app_assoc. Qed.
  Lemma moved_file h a b c : tree h -> a <> "" -> b <> "" -> a <> "/" -> b <> "/" -> a <> b -> h !! a = Some (NFile c) -> h !! b = None -> moved h a b = <[b := NFile c]> (delete a h).
  Proof.
    intros Tr A B A' B' Ne Fa Fb. assert (Ka : forall s, h !! (a ++ "/" ++ s) = None).
    { intros s. destruct (h !! (a ++ "/" ++ s)) as [m|] eqn:E; [|reflexivity]. apply (tree_below h a Tr s m) in E; [|exact A]. rewrite node_at_map in E by exact A'. congruence. }
    assert (Kb : forall s, h !! (b ++ "/" ++ s) = None).
    { intros s. destruct (h !! (b ++ "/" ++ s)) as [m|] eqn:E; [|reflexivity]. apply (tree_below h b Tr s m) in E; [|exact B]. rewrite node_at_map in E by exact B'. congruence. }
    assert (Long : forall x s, x <> x ++ "/" ++ s). { induction x as [|y x IH]; intros s E; [discriminate E|]. injection E as E. exact (IH s E). }
    apply map_eq. intros q. destruct (under b q) eqn:U.
    - assert (U' := U). apply under_iff in U' as (r & -> & R). rewrite (moved_there h a b r U). destruct R as [->|[s ->]].
      + now rewrite !str_app_nil_r, lookup_insert.
      + rewrite Ka. rewrite lookup_insert_ne by apply Long. destruct (decide (a = b ++ "/" ++ s)) as [E|E]; [now rewrite <- E, lookup_delete|]. rewrite lookup_delete_ne by exact E. now rewrite Kb.
    - rewrite (moved_else h a b q U). assert (Nb : b <> q). { intros <-. assert (X : under b b = true); [|congruence]. apply under_iff. exists "". split; [now rewrite str_app_nil_r|now left]. }
      rewrite lookup_insert_ne by exact Nb. destruct (under a q) eqn:V.
      + apply under_iff in V as (r & -> & [->|[s ->]]); [now rewrite str_app_nil_r, lookup_delete|]. rewrite lookup_delete_ne by apply Long. now rewrite Ka.
      + destruct (decide (a = q)) as [<-|E]; [|now rewrite lookup_delete_ne]. exfalso. assert (X : under a a = true); [|congruence]. apply under_iff. exists "". split; [now rewrite str_app_nil_r|now left].
  Qed.
  Lemma target_locate fl g p d n : stands g d -> name n -> (p = below d [n] \/ p = n /\ d = cwd) -> (forall t, g !! below d [n] <> Some (NLink t)) -> locate cwd fl g p = Some (below d [n]).
  Proof.
    intros S N P L. destruct (stands_root d g S) as (A & R1 & R2 & _). destruct P as [-> | [-> ->]].
    - rewrite <- (place_ne d [n]) at 1 by discriminate. apply locate_reach; [exact S|now intros m [<-|[]]|intros a b E Na Nb; destruct a as [|x [|y a]]; [congruence|destruct b; [congruence|discriminate E]|discriminate E]|]. intros _ _. exact L.
    - apply locate_here; [exact N|]. intros t. rewrite node_at_below by assumption. apply L.
  Qed.
  Lemma change_stands h g d : (forall q, h !! q = Some NDir -> g !! q = Some NDir) -> stands h d -> stands g d.
  Proof. intros K (rs & N & H & E & D). exists rs. split; [exact N|]. split; [exact H|]. split; [exact E|]. intros a b Ea Na. now apply K, (D a b). Qed.
  Lemma edit_clean h t : tree h -> to_edit cwd sub h t -> h !! backup_of t = None ->
    result (edit cwd sub (t_path t)) h = Ok tt /\ final (edit cwd sub (t_path t)) h = <[place_of t := NFile (t_new t)]> h.
  Proof.
    destruct t as [p d n c c']. unfold to_edit, backup_of, place_of. cbn [t_path t_dir t_name t_old t_new]. intros Tr (S & N & P & F & E) B. destruct (stands_root d h S) as (A & R1 & R2 & _).
    destruct (edited_ok c c' E) as (out & Eo & <-). pose proof (bak_name n N) as Nb. rewrite <- bak_place in B. set (q := below d [n]) in *. set (q' := below d [n ++ ".bak"]) in *.
    assert (Pb : p ++ ".bak" = q' \/ p ++ ".bak" = n ++ ".bak" /\ d = cwd). { destruct P as [-> | [-> ->]]; [left; unfold q, q'; now rewrite bak_place|now right]. }
    assert (Ne : q <> q') by congruence.
    assert (Kq : forall m g, node_at g (below d [m]) = g !! below d [m]) by (intros m g; now apply node_at_below).
    assert (Nz : forall m, name m -> below d [m] <> "" /\ below d [m] <> "/").
    { intros m Nm. split; [|apply absolute_root, below_absolute; [now right|now intros x [<-|[]]|discriminate]]. destruct (below_absolute d [m]) as (r & _ & ->); [now right|now intros x [<-|[]]|discriminate|discriminate]. }
    (* the states *)
    set (h1 := <[q' := NFile c]> (delete q h)). set (h2 := <[q := NFile ""]> h1). set (h3 := <[q := NFile (Pipes.join out)]> h2).
    assert (S1 : stands h1 d). { apply (change_stands h); [|exact S]. intros x X. unfold h1. rewrite lookup_insert_ne by congruence. rewrite lookup_delete_ne by congruence. exact X. }
    assert (S2 : stands h2 d). { apply (change_stands h1); [|exact S1]. intros x X. unfold h2. rewrite lookup_insert_ne; [exact X|]. intros <-. unfold h1 in X. rewrite lookup_insert_ne, lookup_delete in X by congruence. discriminate X. }
    assert (S3 : stands h3 d). { apply (change_stands h2); [|exact S2]. intros x X. unfold h3. rewrite lookup_insert_ne; [exact X|]. intros <-. unfold h2 in X. rewrite lookup_insert in X. discriminate X. }
    assert (L0 : forall fl, locate cwd fl h p = Some q) by (intros fl; apply target_locate; [exact S|exact N|exact P|]; intros t; fold q; rewrite F; discriminate).
    assert (L0' : forall fl, locate cwd fl h (p ++ ".bak") = Some q') by (intros fl; apply target_locate; [exact S|exact Nb|exact Pb|]; intros t; fold q'; rewrite B; discriminate).
    assert (V1 : h1 !! q' = Some (NFile c)) by apply lookup_insert. assert (V1' : h1 !! q = None) by (unfold h1; rewrite lookup_insert_ne by congruence; apply lookup_delete).
    assert (V2 : h2 !! q = Some (NFile "")) by apply lookup_insert. assert (V3 : h3 !! q' = Some (NFile c)) by (unfold h3, h2; rewrite !lookup_insert_ne by congruence; exact V1).
    assert (L1 : locate cwd true h1 (p ++ ".bak") = Some q') by (apply target_locate; [exact S1|exact Nb|exact Pb|]; intros t; fold q'; rewrite V1; discriminate).
    assert (L1' : locate cwd true h1 p = Some q) by (apply target_locate; [exact S1|exact N|exact P|]; intros t; fold q; rewrite V1'; discriminate).
    assert (L2 : locate cwd true h2 p = Some q) by (apply target_locate; [exact S2|exact N|exact P|]; intros t; fold q; rewrite V2; discriminate).
    assert (L3 : locate cwd false h3 (p ++ ".bak") = Some q') by (apply target_locate; [exact S3|exact Nb|exact Pb|]; intros t; fold q'; rewrite V3; discriminate).
    assert (E1 : try_except (os_unlink cwd (p ++ ".bak")) is_os_error (ret tt) h = ([], Ok tt)).
    { unfold try_except, os_unlink. rewrite ask_eq, L0'. unfold q'. rewrite Kq. fold q'. rewrite B. reflexivity. }
    assert (E2 : os_rename cwd p (p ++ ".bak") h = ([h1], Ok tt)).
    { unfold os_rename. rewrite ask_eq, L0, L0', (proj2 (String.eqb_neq q q') Ne), (proj2 (String.eqb_neq q "/") (proj2 (Nz n N))), (proj2 (String.eqb_neq q' "/") (proj2 (Nz _ Nb))). cbn [orb]. unfold q, q'. rewrite !Kq. fold q q'. rewrite F, B. unfold h1.
      rewrite <- (moved_file h q q' c); [reflexivity|exact Tr|apply (Nz n N)|apply (Nz _ Nb)|apply (Nz n N)|apply (Nz _ Nb)|exact Ne|exact F|exact B]. }
    assert (E3 : os_write cwd p "" h1 = ([h2], Ok tt)).
    { unfold os_write. rewrite ask_eq, L1'. unfold q. rewrite Kq. fold q. rewrite V1'. reflexivity. }
    assert (E4 : os_write cwd p (Pipes.join out) h2 = ([h3], Ok tt)).
    { unfold os_write. rewrite ask_eq, L2. unfold q. rewrite Kq. fold q. rewrite V2. reflexivity. }
    assert (E5 : try_except (os_unlink cwd (p ++ ".bak")) is_os_error (ret tt) h3 = ([delete q' h3], Ok tt)).
    { unfold try_except, os_unlink. rewrite ask_eq, L3. unfold q'. rewrite Kq. fold q'. rewrite V3. reflexivity. }
    assert (St : os_stat cwd h1 (p ++ ".bak") = Some (NFile c)) by (unfold os_stat; rewrite L1; unfold q'; rewrite Kq; exact V1).
    assert (X : edit cwd sub p h = ([h1; h2; h3; delete q' h3], Ok tt)).
    { unfold edit. unfold andthen at 1. rewrite E1. cbn [List.last]. unfold andthen at 1. rewrite E2. cbn [List.last]. rewrite ask_eq, St. unfold andthen at 1. rewrite E3. cbn [List.last]. rewrite Eo. unfold andthen. rewrite E4. cbn [List.last]. rewrite E5. reflexivity. }
    unfold result, final. rewrite X. split; [reflexivity|]. cbn [fst List.last]. apply map_eq. intros x. unfold h3, h2, h1.
    destruct (decide (q' = x)) as [<-|Nx]; [rewrite lookup_delete, lookup_insert_ne by congruence; now symmetry|]. rewrite lookup_delete_ne by exact Nx.
    destruct (decide (q = x)) as [<-|Nq]; [now rewrite !lookup_insert|]. rewrite !lookup_insert_ne by assumption. now rewrite lookup_delete_ne.
  Qed.

  Lemma target_lstat g p d n : stands g d -> name n -> (p = below d [n] \/ p = n /\ d = cwd) -> locate cwd false g p = Some (below d [n]).
  Proof.
    intros S N P. assert (One : forall a b, [n] = (a ++ b)%list -> a <> [] -> b <> [] -> False) by (intros a b E Na Nb; destruct a as [|x [|y a]]; [congruence|destruct b; [congruence|discriminate E]|discriminate E]). destruct P as [-> | [-> ->]].
    - rewrite <- (place_ne d [n]) at 1 by discriminate. apply locate_reach; [exact S|now intros m [<-|[]]|intros a b E Na Nb; now destruct (One a b E Na Nb)|discriminate].
    - assert (N' := N). destruct N' as (Z & _ & _ & F). rewrite locate_relative; [|exact Z|].
      + rewrite (split_name n N). apply walk_reach; [now intros m [<-|[]]|intros a b E Na Nb; now destruct (One a b E Na Nb)|discriminate].
      + destruct n as [|c n]; [congruence|]. apply not_true_is_false. rewrite startswith_iff. intros [r E]. injection E as -> _. apply F. now left.
  Qed.
  Lemma first_step {B} (p : prog fs unit) (q : unit -> prog fs B) h h0 : p h = ([h0], Ok tt) -> p h0 = ([], Ok tt) -> andthen p q h = (h0 :: fst (andthen p q h0), snd (andthen p q h0)).
  Proof. intros E1 E2. unfold andthen. rewrite E1, E2. cbn [List.last]. now destruct (q tt h0) as [tr r]. Qed.
  Lemma tree_less h q m : tree h -> h !! q = Some m -> m <> NDir -> tree (delete q h).
  Proof.
    intros Tr E N p n X. apply lookup_delete_Some in X as [_ X]. destruct (Tr p n X) as [A D]. split; [exact A|]. revert D. unfold node_at. destruct (String.eqb (dirname p) "/"); [trivial|]. intros D. rewrite lookup_delete_ne; [exact D|]. congruence.
  Qed.
  Lemma delete_edit h t : to_edit cwd sub h t -> place_of t <> backup_of t -> to_edit cwd sub (delete (backup_of t) h) t \/ h !! backup_of t = Some NDir.
  Proof.
    intros (S & N & P & F & E) Ne. destruct (h !! backup_of t) as [m|] eqn:B; [destruct m as [c| | |]|]; try (now right); left; (split; [apply (change_stands h); [|exact S]; intros q X; rewrite lookup_delete_ne; [exact X|congruence]|]; split; [exact N|]; split; [exact P|]; split; [rewrite lookup_delete_ne by congruence; exact F|exact E]).
  Qed.
  Lemma place_not_backup t : place_of t <> backup_of t.
  Proof. unfold backup_of. generalize (place_of t). induction s as [|x s IH]; [discriminate|]. intros E. injection E as E. exact (IH E). Qed.
  Lemma edit_ok h t : tree h -> to_edit cwd sub h t -> backup_room h t ->
    result (edit cwd sub (t_path t)) h = Ok tt /\ final (edit cwd sub (t_path t)) h = <[place_of t := NFile (t_new t)]> (delete (backup_of t) h) /\ tree (delete (backup_of t) h).
  Proof.
    intros Tr T B. destruct (h !! backup_of t) as [m|] eqn:X.
    2:{ destruct (edit_clean h t Tr T X) as [R E]. rewrite delete_notin by exact X. now split. }
    assert (Nm : m <> NDir) by (intros ->; now apply B). pose proof (tree_less h _ m Tr X Nm) as Tr'. set (h0 := delete (backup_of t) h) in *.
    destruct (delete_edit h t T (place_not_backup t)) as [T'|Y]; [|congruence]. fold h0 in T'. destruct (edit_clean h0 t Tr' T' (lookup_delete _ _)) as [R E].
    assert (Bp : backup_of t = below (t_dir t) [t_name t ++ ".bak"]) by (unfold backup_of, place_of; now rewrite bak_place).
    assert (Pb : t_path t ++ ".bak" = below (t_dir t) [t_name t ++ ".bak"] \/ t_path t ++ ".bak" = t_name t ++ ".bak" /\ t_dir t = cwd).
    { destruct T as (_ & _ & [-> | [-> ->]] & _); [left; unfold place_of; now rewrite bak_place|now right]. }
    assert (Nb : name (t_name t ++ ".bak")) by (apply bak_name, T).
    assert (St : stands h (t_dir t)) by apply T. assert (St' : stands h0 (t_dir t)) by apply T'. destruct (stands_root _ h St) as (A & R1 & R2 & _).
    assert (E1 : try_except (os_unlink cwd (t_path t ++ ".bak")) is_os_error (ret tt) h = ([h0], Ok tt)).
    { unfold try_except, os_unlink. rewrite ask_eq, (target_lstat h _ _ _ St Nb Pb), node_at_below by assumption. rewrite <- Bp, X. unfold h0. destruct m; [reflexivity|congruence|reflexivity|reflexivity]. }
    assert (E2 : try_except (os_unlink cwd (t_path t ++ ".bak")) is_os_error (ret tt) h0 = ([], Ok tt)).
    { unfold try_except, os_unlink. rewrite ask_eq, (target_lstat h0 _ _ _ St' Nb Pb), node_at_below by assumption. rewrite <- Bp. unfold h0. rewrite lookup_delete. reflexivity. }
    assert (K : edit cwd sub (t_path t) h = (h0 :: fst (edit cwd sub (t_path t) h0), snd (edit cwd sub (t_path t) h0))).
    { exact (first_step _ _ h h0 E1 E2). }
    split; [unfold result; rewrite K; exact R|]. split; [|exact Tr']. rewrite <- E. unfold final. rewrite K. cbn [fst]. destruct (fst (edit cwd sub (t_path t) h0)) as [|x tr] eqn:Et; [reflexivity|]. change (h0 :: x :: tr) with (app [h0] (x :: tr)). now rewrite last_app.
  Qed.

  (** ** All of them *)
  Lemma edits l : forall h, tree h -> List.Forall (to_edit cwd sub h) l -> List.Forall (backup_room h) l -> List.NoDup (map place_of l) -> (forall t u, In t l -> In u l -> place_of t <> backup_of u) ->
    let p := each (fun p => f <~ ask (fun f => f) ;; if e_exists cwd f p then edit cwd sub p else raise EError) (map t_path l) in
    result p h = Ok tt /\ all_edited l h (final p h).
  Proof.
    induction l as [|t l IH]; intros h Tr T B D Ap; cbn [map each]; [split; [reflexivity|]; split; [intros t []|now intros q _]|].
    apply List.Forall_cons_iff in T as [T Ts]. apply List.Forall_cons_iff in B as [B Bs]. inversion D as [|? ? Nt Dl]; subst. destruct (edit_ok h t Tr T B) as (R & E & Tr0).
    assert (Ex : e_exists cwd h (t_path t) = true).
    { destruct T as (S & N & P & F & _). destruct (stands_root _ h S) as (A & R1 & R2 & _). unfold e_exists, os_stat. rewrite (target_locate true h _ (t_dir t) (t_name t) S N P); [|intros x; fold (place_of t); rewrite F; discriminate]. rewrite node_at_below by assumption. fold (place_of t). now rewrite F. }
    set (F := fun p => f <~ ask (fun f => f) ;; if e_exists cwd f p then edit cwd sub p else raise EError). set (h' := <[place_of t := NFile (t_new t)]> (delete (backup_of t) h)) in *.
    assert (R' : result (F (t_path t)) h = Ok tt) by (unfold F, result; rewrite ask_eq, Ex; exact R). assert (E' : final (F (t_path t)) h = h') by (unfold F, final; rewrite ask_eq, Ex; exact E).
    destruct T as (S & N & P & Ft & _). destruct (stands_root _ h S) as (A & R1 & R2 & _). pose proof (place_not_backup t) as Np.
    assert (Kd0 : forall q, h !! q = Some NDir -> delete (backup_of t) h !! q = Some NDir). { intros q X. rewrite lookup_delete_ne; [exact X|]. intros <-. now apply B. }
    assert (Kd : forall q, h !! q = Some NDir -> h' !! q = Some NDir). { intros q X. unfold h'. rewrite lookup_insert_ne; [now apply Kd0|]. congruence. }
    assert (Tr' : tree h'). { apply (insert_tree (t_dir t) (delete (backup_of t) h) [] (t_name t) (t_new t)); try assumption; [now intros m [<-|[]]|apply Kd0; exact (root_there _ h S)|]. cbn [app]. fold (place_of t). rewrite lookup_delete_ne by congruence. rewrite Ft. discriminate. }
    destruct (IH h' Tr') as (Rl & V & O).
    { rewrite List.Forall_forall in Ts |- *. intros u I. destruct (Ts u I) as (Su & Nu & Pu & Fu & Eu). split; [exact (change_stands h h' _ Kd Su)|]. split; [exact Nu|]. split; [exact Pu|]. split; [|exact Eu]. unfold h'. rewrite lookup_insert_ne; [|intros X; apply Nt; rewrite X; now apply in_map]. rewrite lookup_delete_ne; [exact Fu|]. intros X. exact (Ap u t (or_intror I) (or_introl eq_refl) (eq_sym X)). }
    { rewrite List.Forall_forall in Bs |- *. intros u I. specialize (Bs u I). unfold backup_room in *. unfold h'. rewrite lookup_insert_ne by (apply Ap; [now left|now right]). destruct (decide (backup_of t = backup_of u)) as [->|X]; [now rewrite lookup_delete|now rewrite lookup_delete_ne]. }
    { exact Dl. }
    { intros u v Iu Iv. apply Ap; now right. }
    fold F in Rl, V, O. split; [unfold result; rewrite (andthen_ok _ _ h tt R'), E'; exact Rl|]. rewrite (andthen_final _ _ h tt R'), E'. split.
    - intros u [<-|I]; [|now apply V]. split.
      + rewrite O; [apply lookup_insert|]. intros v I. split; [|apply Ap; [now left|now right]]. intros X. apply Nt. rewrite X. now apply in_map.
      + destruct (in_dec string_dec (backup_of t) (map backup_of l)) as [J|J]; [apply in_map_iff in J as (v & <- & J); now apply V|]. rewrite O; [unfold h'; rewrite lookup_insert_ne by exact Np; apply lookup_delete|].
        intros v I. split; [intros X; exact (Ap v t (or_intror I) (or_introl eq_refl) (eq_sym X))|intros X; apply J; rewrite X; now apply in_map].
    - intros q Nq. rewrite O by (intros v I; apply Nq; now right). destruct (Nq t (or_introl eq_refl)) as [N1 N2]. unfold h'. rewrite lookup_insert_ne by congruence. now rewrite lookup_delete_ne by congruence.
  Qed.
  Lemma dosed_ok h s l : tree h -> glob cwd expand h s = map t_path l -> List.Forall (to_edit cwd sub h) l -> List.Forall (backup_room h) l -> List.NoDup (map place_of l) -> (forall t u, In t l -> In u l -> place_of t <> backup_of u) ->
    result (dosed cwd expand sub s) h = Ok tt /\ all_edited l h (final (dosed cwd expand sub s) h).
  Proof. intros Tr G T B D Ap. unfold dosed, result, final. rewrite ask_eq, G. exact (edits l h Tr T B D Ap). Qed.
  Lemma dosed_missing h s : has_magic s = false -> os_lstat cwd h s = None -> dosed cwd expand sub s h = ([], Ok tt).
  Proof. intros M L. unfold dosed. rewrite ask_eq. unfold glob, e_lexists. rewrite M, L. reflexivity. Qed.
End sed.
