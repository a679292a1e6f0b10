(** * Decoding what was encoded *)
From Coq Require Import String Ascii ZArith NArith List Bool Lia.
From stdpp Require Import gmap strings.
From Verif Require Import Model.Py Model.Xml Spec.XmlSpec Proof.XmlText Proof.XmlTree.
Import ListNotations.
Open Scope string_scope.

(** ** Induction over types *)
Definition member_all (P : typ -> Prop) (m : member typ) : Prop := match m with Tag _ t _ _ => P t | _ => True end.
Lemma typ_induct (P : typ -> Prop) : (forall b, P (Basic b)) -> P LocalText ->
  (forall tag ms h, Forall (member_all P) ms -> P (Object tag ms h)) -> (forall t, P t -> P (ListOf t)) -> forall t, P t.
Proof.
  intros B L O Ls. fix IH 1. intros [b| |tag ms h|t]; [apply B|exact L| |apply Ls, IH].
  apply O. induction ms as [|[k b m|k b m|k t m p] ms IHm]; constructor; try exact IHm; cbn; auto.
Qed.

(** ** The nested loops are the functions on members *)
Fixpoint encode_items (keys : gmap utext (option utext) -> list utext) (comps : list string) (t : typ) (l : list value) (n : node) : effect :=
  match l with
  | [] => Ok (n, [])
  | x :: l =>
      then_ (if String.eqb (py_join "/" (removelast comps)) "" then encode_tag keys t (List.last comps "") true None x n
             else addNode (removelast comps) (encode_tag keys t (List.last comps "") true None x) n)
            (encode_items keys comps t l)
  end.
Fixpoint decode_items (t : typ) (token : string) (nodes : list node) : res (list value * list complaint) :=
  match nodes with
  | [] => Ok ([], [])
  | x :: nodes =>
      v <- decode_tag t token true None (insertNode (Elem "Dummy" [] []) x) ;;
      r <- decode_items t token nodes ;;
      Ok (fst v :: fst r, snd v ++ snd r)%list
  end.
Lemma then_ext r f g : (forall n, f n = g n) -> then_ r f = then_ r g.
Proof. intros H. destruct r as [[n e]|x]; cbn; [|reflexivity]. now rewrite H. Qed.
Lemma encode_object_eq keys tag ms h token mandatory path fields n :
  encode_tag keys (Object tag ms h) token mandatory path (VObj fields) n =
  (r <- encode_members keys fields ms (Elem token [] []) ;; Ok (insertNode n (fst r), snd r)).
Proof.
  cbn [encode_tag]. f_equal. generalize (Elem token [] []). induction ms as [|m ms IH]; intros x; [reflexivity|].
  cbn [encode_members]. unfold encode_member at 1. apply then_ext. exact IH.
Qed.
Lemma encode_list_eq keys t token mandatory path x l n :
  encode_tag keys (ListOf t) token mandatory path (VList (x :: l)) n = encode_items keys (list_path token t path) t (x :: l) n.
Proof.
  cbn [encode_tag encode_items]. apply then_ext. clear n. induction l as [|y l IH]; intros n; [reflexivity|].
  cbn [encode_items]. apply then_ext. exact IH.
Qed.
Lemma decode_object_eq tag ms h token mandatory path n :
  decode_tag (Object tag ms h) token mandatory path n =
  match getNode n [token] with
  | None => Ok (VNone, if mandatory then [NoArgument] else [])
  | Some n => r <- decode_members n ms [] ;; _ <- run_hook h (fst r) ;; Ok (VObj (fst r), snd r)
  end.
Proof.
  cbn [decode_tag]. destruct (getNode n [token]) as [c|]; [|reflexivity]. f_equal.
  generalize (@nil (string * value)). induction ms as [|m ms IH]; intros fs; [reflexivity|].
  cbn [decode_members]. unfold decode_member at 1.
  match goal with |- bind ?x _ = bind ?y _ => change y with x; destruct x end; cbn [bind]; [|reflexivity].
  rewrite IH. reflexivity.
Qed.
Lemma decode_list_eq t token mandatory path n :
  decode_tag (ListOf t) token mandatory path n =
  (let comps := list_path token t path in let nodes := getAllNodes n comps in
   r <- decode_items t (List.last comps "") nodes ;;
   Ok (VList (fst r), ((match nodes with [] => if mandatory then [EmptyList] else [] | _ => [] end) ++ snd r)%list)).
Proof.
  cbn [decode_tag]. cbn zeta. f_equal. generalize (getAllNodes n (list_path token t path)). intros l.
  induction l as [|x l IH]; [reflexivity|]. cbn [decode_items]. now rewrite <- IH.
Qed.

(** ** One effect after the other without complaint *)
Lemma then_ok r f n : then_ r f = Ok (n, []) -> exists n1, r = Ok (n1, []) /\ f n1 = Ok (n, []).
Proof.
  destruct r as [[n1 e1]|x]; cbn; [|discriminate]. destruct (f n1) as [[n2 e2]|x] eqn:F; cbn; [|discriminate].
  intros [= -> E]. apply app_eq_nil in E as [-> ->]. eauto.
Qed.

(** What of the nodes on its path decoding a member looks at *)
Definition view (t : typ) (l : list node) : list node :=
  match t with Basic _ | Object _ _ _ => match l with [] => [] | x :: _ => [x] end | _ => l end.
Lemma view_hd t l l' : (match t with Basic _ | Object _ _ _ => True | _ => False end) -> view t l = view t l' -> hd_error l = hd_error l'.
Proof. destruct t; try contradiction; intros _; cbn; destruct l, l'; cbn; congruence. Qed.

Definition nonempty_comps (token : string) (t : typ) (path : option string) : Prop := forall c, In c (comps_of token t path) -> c <> "".
Definition encodes (keys : gmap utext (option utext) -> list utext) (t : typ) (token : string) (mandatory : bool) (path : option string) (v : value) : Prop :=
  exists n n', is_elem n /\ encode_tag keys t token mandatory path v n = Ok (n', []).
(** [ws] is what encoding [v] writes; reading that gives [v] *)
Record writes (keys : gmap utext (option utext) -> list utext) (t : typ) (token : string) (path : option string) (v : value) (ws : list node) : Prop := mkWrites {
  wr_extends : forall mandatory n n', is_elem n -> encode_tag keys t token mandatory path v n = Ok (n', []) -> extends (comps_of token t path) ws n n';
  wr_decode : forall mandatory n, encodes keys t token mandatory path v -> view t (all (comps_of token t path) n) = view t ws ->
    decode_tag t token mandatory path n = Ok (v, []);
  wr_one : truth v = true -> match t with Basic _ | Object _ _ _ => exists w, ws = [w] /\ named token w = true | _ => True end
}.

Lemma encodes_truth keys t token path v : encodes keys t token true path v -> truth v = true.
Proof.
  intros (n & n' & _ & H). revert H. destruct t; cbn [encode_tag].
  - unfold encode_basic. destruct (truth v); [reflexivity|discriminate].
  - destruct v; try discriminate. destruct (truth (VLocal d)); [reflexivity|discriminate].
  - destruct v; try discriminate. reflexivity.
  - destruct v; try discriminate. destruct l; [discriminate|reflexivity].
Qed.
Lemma encode_truth keys t token path v n n' : is_elem n -> encode_tag keys t token true path v n = Ok (n', []) -> truth v = true.
Proof. intros E H. eapply encodes_truth. exists n, n'. split; eassumption. Qed.

(** ** Simple values *)
Lemma write_tag_is token t n : write_tag token t n = insertNode n (Elem token [] [Data t]).
Proof. reflexivity. Qed.
Lemma writes_basic keys b token path v : simple b v ->
  exists ws, writes keys (Basic b) token path v ws.
Proof.
  intros S. destruct (truth v) eqn:T.
  - destruct (simple_encodes b v S T) as (t & U & R & F). exists [Elem token [] [Data t]]. constructor.
    + intros mandatory n n' E. cbn [encode_tag]. unfold encode_basic. rewrite T, U. cbn [bind]. intros [= <-].
      apply extends_insert; [exact E|apply String.eqb_refl].
    + intros mandatory n _ V. cbn [decode_tag]. rewrite getNode_all.
      cbn [comps_of] in V. apply view_hd in V; [|exact Logic.I]. rewrite V. cbn [hd_error text_of getNodeText children bind].
      rewrite (ustrip_trimmed t R). unfold decode_basic. destruct t as [|c t]; [destruct R as [[] _]; reflexivity|]. now rewrite F.
    + intros _. exists (Elem token [] [Data t]). split; [reflexivity|apply String.eqb_refl].
  - pose proof (simple_falsy b v S T) as ->. exists []. constructor.
    + intros mandatory n n' E. cbn [encode_tag]. unfold encode_basic. rewrite T. intros [= <- _]. now apply extends_refl.
    + intros mandatory n M V. cbn [decode_tag]. rewrite getNode_all. cbn [comps_of] in V. apply view_hd in V; [|exact Logic.I]. rewrite V. cbn [hd_error text_of bind].
      unfold decode_basic. destruct mandatory; [apply encodes_truth in M; discriminate M|reflexivity].
    + discriminate.
Qed.

(** ** Local text *)
Definition local_node (tag : string) (d : gmap utext (option utext)) (k : utext) : node :=
  Elem tag [("xml:lang", k)] [Data (default [] (default None (d !! k)))].
Lemma encode_local_extends tag d ks n n' : is_elem n -> encode_local tag d ks n = Ok (n', []) ->
  extends [tag] (map (local_node tag d) ks) n n'.
Proof.
  revert n. induction ks as [|k ks IH]; intros n E; cbn [encode_local map].
  - intros [= <-]. now apply extends_refl.
  - destruct (d !! k) as [[t|]|] eqn:D; try discriminate. intros H.
    change (local_node tag d k :: map (local_node tag d) ks) with ([local_node tag d k] ++ map (local_node tag d) ks)%list.
    eapply extends_trans; [|apply IH, H].
    + unfold local_node. rewrite D. cbn [default]. unfold id. apply extends_insert; [exact E|apply String.eqb_refl].
    + apply (extends_is_elem [tag] [local_node tag d k] n). unfold local_node. rewrite D. cbn [default]. unfold id. apply extends_insert; [exact E|apply String.eqb_refl].
Qed.
Lemma decode_local_nodes tag d ks acc : local_text d -> (forall k, In k ks -> is_Some (d !! k)) ->
  decode_local tag (map (local_node tag d) ks) acc =
  Ok (fold_left (fun a k => match d !! k with Some c => <[ k := c ]> a | None => a end) ks acc, []).
Proof.
  intros L. revert acc. induction ks as [|k ks IH]; intros acc H; [reflexivity|]. cbn [map decode_local fold_left].
  destruct (H k (or_introl eq_refl)) as [c D]. destruct (L k c D) as (Nk & t & -> & R).
  assert (G : getNodeText (local_node tag d k) = Ok (Some t)).
  { unfold local_node. rewrite D. change (getNodeText _) with (Ok (Some (ustrip t)) : res (option utext)). now rewrite (ustrip_trimmed t R). }
  assert (A : getNodeAttribute (local_node tag d k) "xml:lang" = Some k) by reflexivity.
  rewrite G, A. cbn [bind]. destruct k as [|a k]; [destruct (Nk eq_refl)|]. rewrite IH by (intros; apply H; now right). cbn [bind fst snd].
  destruct R as [R _]. destruct t as [|b t]; [destruct (R eq_refl)|]. cbn [app]. rewrite D. reflexivity.
Qed.
Lemma fold_dict (d acc : gmap utext (option utext)) ks : (forall k, acc !! k = None \/ acc !! k = d !! k) -> (forall k, In k ks -> is_Some (d !! k)) ->
  (forall k, is_Some (d !! k) -> In k ks \/ acc !! k = d !! k) ->
  fold_left (fun a k => match d !! k with Some c => <[ k := c ]> a | None => a end) ks acc = d.
Proof.
  revert acc. induction ks as [|k ks IH]; intros acc A B C; cbn [fold_left].
  - apply map_eq. intros k. destruct (d !! k) eqn:D.
    + destruct (C k) as [[]|K]; [rewrite D; eauto|]. congruence.
    + destruct (A k) as [K|K]; [exact K|]. congruence.
  - destruct (B k (or_introl eq_refl)) as [c D]. rewrite D. apply IH.
    + intros k'. destruct (decide (k' = k)) as [->|N]; [rewrite lookup_insert; auto|]. rewrite lookup_insert_ne by congruence. apply A.
    + intros k' K. apply B. now right.
    + intros k' K. destruct (decide (k' = k)) as [->|N]; [rewrite lookup_insert; auto|]. rewrite lookup_insert_ne by congruence.
      destruct (C k' K) as [[E|E]|E]; [congruence|auto|auto].
Qed.
Lemma writes_local keys token path v : any_order keys -> (exists d, v = VLocal d /\ local_text d) ->
  exists ws, writes keys LocalText token path v ws.
Proof.
  intros O (d & -> & L). destruct (O d) as [_ K]. destruct (truth (VLocal d)) eqn:T.
  - exists (map (local_node token d) (keys d)). constructor.
    + intros mandatory n n' E. cbn [encode_tag]. rewrite T. now apply encode_local_extends.
    + intros mandatory n _ V. cbn [decode_tag]. rewrite getAllNodes_all. cbn [comps_of view] in V. rewrite V.
      assert (Ne : keys d <> []).
      { intros Z. cbn [truth] in T. apply negb_true_iff, bool_decide_eq_false in T. apply T. apply map_eq. intros k. rewrite lookup_empty.
        destruct (d !! k) eqn:D; [|reflexivity]. exfalso. assert (X : In k (keys d)) by (apply K; rewrite D; eauto). rewrite Z in X. exact X. }
      pose proof (decode_local_nodes token d (keys d) ∅ L (fun k => proj1 (K k))) as Q. rewrite fold_dict in Q.
      * destruct (keys d) as [|k ks]; [congruence|]. cbn [map] in Q |- *. rewrite Q. reflexivity.
      * intros k. left. apply lookup_empty.
      * intros k. apply K.
      * intros k H. left. now apply K.
    + trivial.
  - exists []. constructor.
    + intros mandatory n n' E. cbn [encode_tag]. rewrite T. intros [= <- _]. now apply extends_refl.
    + intros mandatory n M V. cbn [decode_tag]. rewrite getAllNodes_all. cbn [comps_of view] in V. rewrite V.
      cbn [truth] in T. apply negb_false_iff, bool_decide_eq_true in T. subst d. destruct mandatory; [|reflexivity]. apply encodes_truth in M. discriminate M.
    + trivial.
Qed.

(** ** Lists *)
Lemma addTagPath_runs tags f n n' e : is_elem n -> addTagPath tags f n = Ok (n', e) -> exists m m', is_elem m /\ f m = Ok (m', e).
Proof.
  revert n n'. induction tags as [|t tags IH]; intros n n' E; cbn [addTagPath]; [eauto|].
  destruct (addTagPath tags f (Elem t [] [])) as [[c e']|x] eqn:A; cbn [bind]; [|discriminate]. cbn [fst snd]. intros [= <- ->]. apply (IH (Elem t [] []) c); [now exists t, [], []|exact A].
Qed.
Lemma addNode_runs tags f n n' : is_elem n -> addNode tags f n = Ok (n', []) -> exists m m', is_elem m /\ f m = Ok (m', []).
Proof.
  revert n n'. induction tags as [|t tags IH]; intros n n' E; cbn [addNode]; [eauto|].
  destruct (existsb (named t) (children n)) eqn:X; [|now apply addTagPath_runs].
  destruct E as (nm & l & cs & ->). cbn [children] in X.
  destruct (update_last t (addNode tags f) cs) as [[cs' e']|ex] eqn:U; cbn [bind]; [|discriminate]. cbn [fst snd]. intros [= <- ->].
  destruct (update_last_spec _ _ _ _ _ X U) as (l1 & c & c' & l2 & -> & N & L & A & ->).
  assert (Ec : is_elem c) by (destruct c; [now exists name, attrs, children|discriminate N]). exact (IH c c' Ec A).
Qed.
Lemma join_nonempty (l : list string) : (forall c, In c l -> c <> "") -> py_join "/" l = "" -> l = [].
Proof.
  destruct l as [|a [|b l]]; [reflexivity| |]; intros H.
  - cbn. intros E. destruct (H a (or_introl eq_refl) E).
  - cbn [py_join]. destruct a; [destruct (H "" (or_introl eq_refl) eq_refl)|discriminate].
Qed.
Definition is_item (t : typ) : Prop := match t with Basic _ | Object _ _ _ => True | _ => False end.
Lemma item_comps t token path : is_item t -> comps_of token t path = [token].
Proof. destruct t; try contradiction; reflexivity. Qed.

Lemma encode_items_extends keys comps t l : comps <> [] -> (forall c, In c comps -> c <> "") -> is_item t ->
  Forall (fun x => exists ws, writes keys t (List.last comps "") None x ws) l ->
  exists wss, (forall n n', is_elem n -> encode_items keys comps t l n = Ok (n', []) -> extends comps (concat wss) n n') /\
    Forall2 (writes keys t (List.last comps "") None) l wss.
Proof.
  intros NE C I W.
  assert (SP : comps = (removelast comps ++ [List.last comps ""])%list) by now apply app_removelast_last.
  induction W as [|x l [ws Wx] W (wss & IH & F)].
  - exists []. split; [|constructor]. intros n n' E. cbn [encode_items concat]. intros [= <-]. now apply extends_refl.
  - exists (ws :: wss). split; [|now constructor]. intros n n' E. cbn [encode_items concat]. intros H. apply then_ok in H as (n1 & H1 & H2).
    assert (K : extends comps ws n n1).
    { assert (X : forall m m', is_elem m -> encode_tag keys t (List.last comps "") true None x m = Ok (m', []) -> extends [List.last comps ""] ws m m').
      { intros m m' Em Hm. rewrite <- (item_comps t (List.last comps "") None I). exact (wr_extends _ _ _ _ _ _ Wx true m m' Em Hm). }
      destruct (String.eqb_spec (py_join "/" (removelast comps)) "") as [J|J].
      - apply join_nonempty in J; [|intros c Hc; apply C; rewrite SP; apply in_or_app; now left].
        rewrite SP, J. cbn [app]. exact (X n n1 E H1).
      - rewrite SP. eapply addNode_extends; [discriminate|exact X|exact E|exact H1]. }
    eapply extends_trans; [exact K|]. apply IH; [exact (extends_is_elem _ _ _ _ K)|exact H2].
Qed.
Lemma encode_items_each keys comps t l n n' : is_elem n -> encode_items keys comps t l n = Ok (n', []) ->
  comps <> [] -> (forall c, In c comps -> c <> "") -> is_item t ->
  Forall (fun x => exists ws, writes keys t (List.last comps "") None x ws) l ->
  Forall (encodes keys t (List.last comps "") true None) l.
Proof.
  intros E H NE C I W. revert n n' E H. induction W as [|x l [ws Wx] W IH]; intros n n' E H; [constructor|].
  pose proof H as H0. cbn [encode_items] in H. apply then_ok in H as (n1 & H1 & H2).
  assert (En : is_elem n1).
  { assert (S1 : encode_items keys comps t [x] n = Ok (n1, [])) by (cbn [encode_items]; unfold then_; rewrite H1; reflexivity).
    destruct (encode_items_extends keys comps t [x] NE C I) as (wss & X & _); [constructor; [eauto|constructor]|].
    exact (extends_is_elem _ _ _ _ (X n n1 E S1)). }
  constructor; [|exact (IH n1 n' En H2)].
  destruct (String.eqb (py_join "/" (removelast comps)) "").
  - exists n, n1. auto.
  - apply addNode_runs in H1 as (m & m' & Em & Hm); [|exact E]. exists m, m'. auto.
Qed.
Lemma decode_items_back keys t token l wss : is_item t -> Forall2 (writes keys t token None) l wss -> Forall (encodes keys t token true None) l ->
  decode_items t token (concat wss) = Ok (l, []) /\ (l <> [] -> concat wss <> []).
Proof.
  intros I F E. induction F as [|x ws l wss W F IH]; [split; [reflexivity|congruence]|].
  inversion E as [|? ? Ex El]; subst. pose proof (encodes_truth _ _ _ _ _ Ex) as T. pose proof (wr_one _ _ _ _ _ _ W T) as O.
  assert (O' : exists w, ws = [w] /\ named token w = true) by (destruct t; try contradiction; exact O). destruct O' as (w & -> & N).
  cbn [concat app decode_items]. split; [|discriminate].
  rewrite (wr_decode _ _ _ _ _ _ W true _ Ex).
  - cbn [bind]. rewrite (proj1 (IH El)). reflexivity.
  - rewrite (item_comps t token None I), all_one. cbn [insertNode app]. unfold getTagByName. cbn [children List.filter]. rewrite N. reflexivity.
Qed.
Lemma writes_list keys t token path v : is_item t -> list_path token t path <> [] -> (forall c, In c (list_path token t path) -> c <> "") ->
  (exists l, v = VList l /\ Forall (fun x => exists ws, writes keys t (List.last (list_path token t path) "") None x ws) l) ->
  exists ws, writes keys (ListOf t) token path v ws.
Proof.
  intros I NE C (l & -> & W). set (comps := list_path token t path) in *.
  destruct (encode_items_extends keys comps t l NE C I W) as (wss & X & F). exists (concat wss).
  destruct l as [|x l].
  - inversion F; subst. cbn [concat]. constructor; [| |trivial].
    + intros mandatory n n' E. cbn [encode_tag]. intros [= <- _]. now apply extends_refl.
    + intros mandatory n (m & m' & _ & M) V. rewrite decode_list_eq. fold comps. cbn zeta. rewrite getAllNodes_all.
      cbn [comps_of view] in V. fold comps in V. rewrite V. cbn. destruct mandatory; [discriminate M|reflexivity].
  - constructor; [| |trivial].
    + intros mandatory n n' E. rewrite encode_list_eq. apply X, E.
    + intros mandatory n (m & m' & Em & M) V. rewrite encode_list_eq in M. fold comps in M.
      pose proof (encode_items_each keys comps t (x :: l) m m' Em M NE C I W) as Ex.
      destruct (decode_items_back keys t _ (x :: l) wss I F Ex) as [D N].
      rewrite decode_list_eq. fold comps. cbn zeta. rewrite getAllNodes_all. cbn [comps_of view] in V. fold comps in V. rewrite V, D. cbn [bind fst snd].
      destruct (concat wss); [destruct (N ltac:(discriminate) eq_refl)|reflexivity].
Qed.
