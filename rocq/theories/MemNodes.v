(** What making, joining and giving away formula nodes does to the invariant. *)
From Coq Require Import ZArith List Bool Arith Lia Permutation.
From Verif Require Import UnitModel SpecMem MemModel MemProof MemInv MemSteps.
Import ListNotations.
Local Open Scope nat_scope.

Definition minus (l ks : list nat) : list nat := filter (fun x => negb (existsb (Nat.eqb x) ks)) l.
Lemma minus_in : forall l ks x, In x (minus l ks) <-> In x l /\ ~ In x ks.
Proof.
  intros. unfold minus. rewrite filter_In. split; intros [A B]; split; try exact A.
  - intro C. apply negb_true_iff in B. assert (existsb (Nat.eqb x) ks = true); [|congruence]. apply existsb_exists. exists x. split; [exact C|apply Nat.eqb_refl].
  - apply negb_true_iff. destruct (existsb (Nat.eqb x) ks) eqn:E; [|reflexivity]. apply existsb_exists in E. destruct E as [y [C D]]. apply Nat.eqb_eq in D. subst. contradiction.
Qed.
Lemma minus_perm : forall l ks, NoDup l -> NoDup ks -> incl ks l -> Permutation l (ks ++ minus l ks).
Proof.
  intros l ks N1 N2 I. apply NoDup_Permutation.
  - exact N1.
  - assert (D : forall a, In a ks -> ~ In a (minus l ks)) by (intros a A B; apply minus_in in B; tauto).
    clear I. induction ks as [|k ks IH]; [cbn [app]; apply NoDup_filter; exact N1|]. inversion N2; subst.
    apply cnt_nodup. intro q. assert (P : NoDup (k :: ks)) by (constructor; assumption).
    assert (A1 : forall l, NoDup l -> cnt q l <= 1).
    { induction l0 as [|y l0 IHl]; intro Nl; cbn [cnt]; [lia|]. inversion Nl; subst. specialize (IHl H4). destruct (Nat.eq_dec q y) as [->|Ne]; [|rewrite one_ne by exact Ne; lia].
      rewrite one_same. assert (cnt y l0 = 0); [|lia]. destruct (cnt y l0) eqn:Ec; [reflexivity|]. exfalso. apply H3. apply cnt_In. lia. }
    rewrite cnt_app. assert (X := A1 _ P). assert (Y := A1 _ (NoDup_filter _ N1 : NoDup (minus l (k :: ks)))).
    destruct (cnt q (k :: ks)) eqn:E; [lia|]. assert (Z : cnt q (minus l (k :: ks)) = 0); [|lia].
    destruct (cnt q (minus l (k :: ks))) eqn:E2; [reflexivity|]. exfalso. apply (D q); apply cnt_In; lia.
  - intro x. rewrite in_app_iff, minus_in. split; [intro H; destruct (in_dec Nat.eq_dec x ks); tauto|intros [H|[H _]]; [apply I; exact H|exact H]].
Qed.
Lemma cnt_minus : forall tree roots ks q, NoDup roots -> NoDup ks -> incl ks roots -> cnt q (free tree roots) = cnt q (free tree ks) + cnt q (free tree (minus roots ks)).
Proof.
  intros. unfold free. rewrite <- cnt_app, <- flat_map_app. apply cnt_perm, Permutation_flat_map, minus_perm; assumption.
Qed.
Lemma roots_nodup : forall h nodes tree roots n, ninv h nodes tree roots n -> (forall q, cnt q (free tree roots) <= 1) -> NoDup roots.
Proof.
  intros h nodes tree roots n N C. assert (L : forall p, In p roots -> In p (labels (tree p))) by (intros p I; destruct (ni_agree _ _ _ _ _ N p I) as (_ & E & _); rewrite <- E at 1; apply root_label).
  clear N. induction roots as [|p l IH]; constructor.
  - intro I. specialize (C p). unfold free in C. cbn [flat_map] in C. rewrite cnt_app in C. assert (X := cnt_flat_in (fun p => labels (tree p)) l p p I). cbn beta in X. assert (Y := proj1 (cnt_In p _) (L p (or_introl eq_refl))). lia.
  - apply IH; [|intros q I; apply L; right; exact I]. intro q. specialize (C q). unfold free in *. cbn [flat_map] in C. rewrite cnt_app in C. lia.
Qed.
Lemma free_in : forall tree roots p q, In p roots -> In q (labels (tree p)) -> In q (free tree roots).
Proof. intros. apply in_flat_map. exists p; auto. Qed.
Lemma free_disjoint : forall tree roots a b q, (forall q, cnt q (free tree roots) <= 1) -> In a roots -> In b roots -> a <> b -> In q (labels (tree a)) -> In q (labels (tree b)) -> False.
Proof.
  intros tree roots a b q C A B N Qa Qb. specialize (C q). unfold free in C. apply in_split in A. destruct A as (l1 & l2 & ->). rewrite cnt_mid in C.
  apply cnt_In in Qa. apply cnt_In in Qb. apply in_app_or in B. destruct B as [B|[B|B]].
  - assert (X := cnt_flat_in (fun p => labels (tree p)) l1 b q B). cbn beta in X. lia.
  - contradiction.
  - assert (X := cnt_flat_in (fun p => labels (tree p)) l2 b q B). cbn beta in X. lia.
Qed.

Lemma fit_closed : forall h t q k, agreeG h t -> In q (labels t) -> gave h q k -> In k (labels t).
Proof.
  intros h t q k. induction t as [p ts IH] using rose_ind'. intros A Q G. inversion A as [? ? A1 A2]; subst. rewrite Forall_forall in IH, A2. destruct Q as [->|Q].
  - apply A1 in G. apply in_map_iff in G. destruct G as [t [<- I]]. right. apply in_flat_map. exists t. split; [exact I|apply root_label].
  - apply in_flat_map in Q. destruct Q as [t [I Q]]. right. apply in_flat_map. exists t. split; [exact I|]. exact (IH t I (A2 t I) Q G).
Qed.
Lemma fit_reach : forall h h' t, agreeG h t -> (forall q k, gave h q k -> gave h' q k) -> belongs h' (rootof t) -> forall q, In q (labels t) -> belongs h' q.
Proof.
  intros h h' t. induction t as [p ts IH] using rose_ind'. intros A M B q Q. inversion A as [? ? A1 A2]; subst. rewrite Forall_forall in IH, A2. destruct Q as [<-|Q]; [exact B|].
  apply in_flat_map in Q. destruct Q as [t [I Q]]. refine (IH t I (A2 t I) M _ q Q). apply (belongs_kid _ p); [exact B|]. apply M. apply A1. apply in_map. exact I.
Qed.
Lemma belongs_made : forall h nodes tree roots n p, ninv h nodes tree roots n -> belongs h p -> made_node h p.
Proof. intros h nodes tree roots n p N B. destruct B as [p E|q k B E]; [exact (ni_trust _ _ _ _ _ N p E)|exact (proj2 (ni_gave _ _ _ _ _ N q k E))]. Qed.

(** Giving a tree to a cell. *)
Lemma ninv_trust : forall h s r co x a p nodes tree roots n n', ninv h nodes tree roots n -> (forall q, cnt q (free tree roots) <= 1) -> n <= n' -> own h p ->
  ninv (h ++ [(MCell s r co x (HTree p true), a)]) nodes tree (minus roots [p]) n'.
Proof.
  intros h s r co x a p nodes tree roots n n' N C L (M & NG & NL). set (e := (MCell s r co x (HTree p true), a)).
  assert (Em : forall q, made_node (h ++ [e]) q <-> made_node h q).
  { intro q. split; intros [k I]; [apply snoc_in in I; destruct I as [I|E]; [exists k; exact I|discriminate E]|exists k; apply snoc_in; left; exact I]. }
  assert (Eg : forall q k, gave (h ++ [e]) q k <-> gave h q k).
  { intros q k. split; (intros [[ks [I J]]|[b I]]); try (apply snoc_in in I; destruct I as [I|E]; [|discriminate E]).
    - left; exists ks; auto. - right; exists b; exact I.
    - left; exists ks; split; [apply snoc_in; left; exact I|exact J]. - right; exists b; apply snoc_in; left; exact I. }
  assert (Et : forall q, entrusted (h ++ [e]) q <-> entrusted h q \/ q = p).
  { intro q. split.
    - intros (s' & r' & c' & x' & b & I). apply snoc_in in I. destruct I as [I|E]; [left; exists s', r', c', x', b; exact I|]. unfold e in E. injection E as _ _ _ _ -> _. right; reflexivity.
    - intros [(s' & r' & c' & x' & b & I)| ->]; [exists s', r', c', x', b; apply snoc_in; left; exact I|exists s, r, co, x, a; apply snoc_in; right; reflexivity]. }
  assert (El : forall q, lent (h ++ [e]) q <-> lent h q).
  { intro q. split; intros (s' & r' & c' & x' & b & I); [apply snoc_in in I; destruct I as [I|E]; [exists s', r', c', x', b; exact I|discriminate E]|exists s', r', c', x', b; apply snoc_in; left; exact I]. }
  assert (En : forall q, given (h ++ [e]) q <-> given h q \/ q = p).
  { intro q. unfold given. rewrite Et. setoid_rewrite Eg. tauto. }
  assert (R : In p roots) by (apply (ni_roots _ _ _ _ _ N); auto).
  destruct (ni_agree _ _ _ _ _ N p R) as (A1 & A2 & A3).
  assert (Eb : forall q, belongs (h ++ [e]) q <-> belongs h q \/ In q (labels (tree p))).
  { intro q. split.
    - intro B. induction B as [q E|q k B IH E].
      + apply Et in E. destruct E as [E| ->]; [left; apply belongs_root; exact E|right]. rewrite <- A2 at 1. apply root_label.
      + apply Eg in E. destruct IH as [IH|IH]; [left; exact (belongs_kid _ _ _ IH E)|right; exact (fit_closed _ _ _ _ A3 IH E)].
    - intros [B|I].
      + induction B as [q E|q k B IH E]; [apply belongs_root; apply Et; left; exact E|]. apply (belongs_kid _ q); [exact IH|apply Eg; exact E].
      + refine (fit_reach h (h ++ [e]) (tree p) A3 (fun q k G => proj2 (Eg q k) G) _ q I). rewrite A2. apply belongs_root. apply Et. right; reflexivity. }
  assert (NR := roots_nodup _ _ _ _ _ N C).
  assert (CM : forall q, cnt q (free tree roots) = cnt q (labels (tree p)) + cnt q (free tree (minus roots [p]))).
  { intro q. rewrite (cnt_minus tree roots [p] q NR); [|constructor; [intros []|constructor]|intros y [<-|[]]; exact R]. unfold free at 1. cbn [flat_map]. rewrite app_nil_r. reflexivity. }
  constructor.
  - intros q I. apply Em in I. assert (X := ni_made _ _ _ _ _ N q I). lia.
  - intros q I. apply Em. apply Et in I. destruct I as [I| ->]; [exact (ni_trust _ _ _ _ _ N q I)|exact M].
  - intros q k I. apply Eg in I. rewrite !Em. exact (ni_gave _ _ _ _ _ N q k I).
  - intro q. rewrite minus_in, Em, En, (ni_roots _ _ _ _ _ N). cbn [In]. split; [intros [[? ?] ?]; split; [assumption|]; intros [?| ->]; tauto|intros [? K]; split; [split; [assumption|tauto]|]; intros [->|[]]; tauto].
  - intro q. rewrite Em, Eb. assert (F := ni_free _ _ _ _ _ N q). rewrite !cnt_In in *. specialize (CM q). specialize (C q). split.
    + intro I. assert (X : 1 <= cnt q (free tree roots)) by lia. apply F in X. destruct X as [X1 X2]. split; [exact X1|]. intros [B|I2]; [contradiction|]. lia.
    + intros [X1 X2]. assert (X : 1 <= cnt q (free tree roots)) by (apply F; tauto). destruct (cnt q (labels (tree p))) eqn:E0; [lia|]. exfalso. apply X2. right. lia.
  - intros q I. apply minus_in in I. destruct I as [I _]. destruct (ni_agree _ _ _ _ _ N q I) as (B1 & B2 & B3). split; [exact B1|]. split; [exact B2|]. refine (fitting_mono _ _ _ _ B3). intros y ks _ H k. rewrite Eg. apply H.
  - intros q I. apply El in I. destruct (ni_lent _ _ _ _ _ N q I) as [X1 X2]. rewrite Em, En. split; [exact X1|]. intros [Y| ->]; contradiction.
Qed.

Definition upd (tree : nat -> rose) (p : nat) (t : rose) (q : nat) : rose := if Nat.eqb q p then t else tree q.
Lemma upd_same : forall tree p t, upd tree p t p = t. Proof. intros. unfold upd. rewrite Nat.eqb_refl. reflexivity. Qed.
Lemma upd_ne : forall tree p t q, q <> p -> upd tree p t q = tree q. Proof. intros. unfold upd. rewrite (proj2 (Nat.eqb_neq q p)) by assumption. reflexivity. Qed.
Lemma free_upd : forall tree p t l, ~ In p l -> free (upd tree p t) l = free tree l.
Proof.
  intros tree p t. induction l as [|x l IH]; intro N; [reflexivity|]. unfold free in *. cbn [flat_map]. rewrite upd_ne by (intros ->; apply N; left; reflexivity). rewrite IH; [reflexivity|]. intro; apply N; right; assumption.
Qed.
Lemma free_map : forall tree ks, flat_map labels (map tree ks) = free tree ks.
Proof. intros tree. induction ks as [|k ks IH]; [reflexivity|]. unfold free in *. cbn [map flat_map]. rewrite IH. reflexivity. Qed.
Lemma agree_other : forall nodes n ks t, ~ In n (labels t) -> agree nodes t -> agree ((n, ks) :: nodes) t.
Proof.
  intros nodes n ks t N A. refine (fitting_mono _ _ _ _ A). intros p js I E. cbn [kids_of]. destruct (Nat.eqb_spec n p) as [->|D]; [contradiction|exact E].
Qed.

(** Making a node. *)
Definition node_tree (tree : nat -> rose) (p : nat) (kids : list nat) : nat -> rose := upd tree p (Node p (map tree kids)).
Definition node_roots (roots : list nat) (p : nat) (kids : list nat) : list nat := p :: minus roots kids.
Lemma node_cnt : forall h nodes tree roots p kids q, ninv h nodes tree roots p -> (forall q, cnt q (free tree roots) <= 1) -> NoDup kids -> Forall (own h) kids ->
  cnt q (free (node_tree tree p kids) (node_roots roots p kids)) = one q p + cnt q (free tree roots).
Proof.
  intros h nodes tree roots p kids q N C NK K. assert (NR := roots_nodup _ _ _ _ _ N C).
  assert (KR : incl kids roots). { intros k I. rewrite Forall_forall in K. destruct (K k I) as (A & B & _). apply (ni_roots _ _ _ _ _ N). auto. }
  unfold node_roots, free at 1. cbn [flat_map]. unfold node_tree at 1. rewrite upd_same. cbn [labels]. rewrite free_map. rewrite cnt_app. cbn [cnt].
  change (flat_map (fun p0 => labels (node_tree tree p kids p0)) (minus roots kids)) with (free (node_tree tree p kids) (minus roots kids)). unfold node_tree.
  rewrite free_upd, (cnt_minus tree roots kids q NR NK KR); [lia|]. intro I. apply minus_in in I. destruct I as [I _]. apply (ni_roots _ _ _ _ _ N) in I. destruct I as [I _]. apply (ni_made _ _ _ _ _ N) in I. lia.
Qed.
Lemma ninv_node : forall h kids p nodes tree roots, ninv h nodes tree roots p -> (forall q, cnt q (free tree roots) <= 1) -> NoDup kids -> Forall (own h) kids ->
  ninv (h ++ [(MNode kids, Some p)]) ((p, kids) :: nodes) (node_tree tree p kids) (node_roots roots p kids) (S p).
Proof.
  intros h kids p nodes tree roots N C NK K. set (e := (MNode kids, Some p)).
  assert (FR : ~ made_node h p) by (intro M; apply (ni_made _ _ _ _ _ N) in M; lia).
  assert (KR : incl kids roots). { intros k I. rewrite Forall_forall in K. destruct (K k I) as (A & B & _). apply (ni_roots _ _ _ _ _ N). auto. }
  assert (KP : ~ In p kids) by (intro I; apply KR, (ni_roots _ _ _ _ _ N) in I; tauto).
  assert (NR := roots_nodup _ _ _ _ _ N C).
  assert (Em : forall q, made_node (h ++ [e]) q <-> made_node h q \/ q = p).
  { intro q. split; [intros [k I]; apply snoc_in in I; destruct I as [I|E]; [left; exists k; exact I|injection E as _ <-; right; reflexivity]|].
    intros [[k I]| ->]; [exists k; apply snoc_in; left; exact I|exists kids; apply snoc_in; right; reflexivity]. }
  assert (Eg : forall q k, gave (h ++ [e]) q k <-> gave h q k \/ (q = p /\ In k kids)).
  { intros q k. split.
    - intros [[ks [I J]]|[b I]]; (apply snoc_in in I; destruct I as [I|E]).
      + left; left; exists ks; auto. + injection E as <- <-. right; auto. + left; right; exists b; exact I. + discriminate E.
    - intros [[[ks [I J]]|[b I]]|[-> I]].
      + left; exists ks; split; [apply snoc_in; left; exact I|exact J]. + right; exists b; apply snoc_in; left; exact I. + left. exists kids. split; [apply snoc_in; right; reflexivity|exact I]. }
  assert (Et : forall q, entrusted (h ++ [e]) q <-> entrusted h q).
  { intro q. split; intros (s' & r' & c' & x' & b & I); [apply snoc_in in I; destruct I as [I|E]; [exists s', r', c', x', b; exact I|discriminate E]|exists s', r', c', x', b; apply snoc_in; left; exact I]. }
  assert (El : forall q, lent (h ++ [e]) q <-> lent h q).
  { intro q. split; intros (s' & r' & c' & x' & b & I); [apply snoc_in in I; destruct I as [I|E]; [exists s', r', c', x', b; exact I|discriminate E]|exists s', r', c', x', b; apply snoc_in; left; exact I]. }
  assert (En : forall q, given (h ++ [e]) q <-> given h q \/ In q kids).
  { intro q. unfold given. rewrite Et. setoid_rewrite Eg. split.
    - intros [A|[z [A|[_ A]]]]; [left; left; exact A|left; right; exists z; exact A|right; exact A].
    - intros [[A|[z A]]|A]; [left; exact A|right; exists z; left; exact A|right; exists p; right; auto]. }
  assert (Eb : forall q, belongs (h ++ [e]) q <-> belongs h q).
  { intro q. split; intro B; induction B as [q E|q k B IH E].
    - apply belongs_root, Et, E.
    - apply Eg in E. destruct E as [E|[-> _]]; [exact (belongs_kid _ _ _ IH E)|]. exfalso. apply FR. exact (belongs_made _ _ _ _ _ _ N IH).
    - apply belongs_root, Et, E.
    - apply (belongs_kid _ q); [exact IH|apply Eg; left; exact E]. }
  assert (PN : forall q, In q roots -> ~ In p (labels (tree q))).
  { intros q I J. apply FR. apply (ni_free _ _ _ _ _ N). exact (free_in _ _ _ _ I J). }
  constructor.
  - intros q I. apply Em in I. destruct I as [I| ->]; [apply (ni_made _ _ _ _ _ N) in I; lia|lia].
  - intros q I. apply Em. left. apply Et in I. exact (ni_trust _ _ _ _ _ N q I).
  - intros q k I. apply Eg in I. rewrite !Em. destruct I as [I|[-> I]]; [destruct (ni_gave _ _ _ _ _ N q k I); auto|]. split; [auto|left]. apply KR, (ni_roots _ _ _ _ _ N) in I. tauto.
  - intro q. unfold node_roots. cbn [In]. rewrite minus_in, Em, En, (ni_roots _ _ _ _ _ N). split.
    + intros [<-|[[A B] D]]; [|tauto]. split; [auto|]. intros [G|G]; [|contradiction]. apply FR. destruct G as [G|[z G]]; [exact (ni_trust _ _ _ _ _ N _ G)|exact (proj2 (ni_gave _ _ _ _ _ N _ _ G))].
    + intros [[A| ->] B]; [right; tauto|left; reflexivity].
  - intro q. rewrite cnt_In, (node_cnt h nodes tree roots p kids q N C NK K), Em, Eb. destruct (Nat.eq_dec q p) as [->|D].
    + rewrite one_same. split; [intros _; split; [auto|]; intro B; apply FR; exact (belongs_made _ _ _ _ _ _ N B)|lia].
    + rewrite one_ne by exact D. rewrite Nat.add_0_l, <- cnt_In, (ni_free _ _ _ _ _ N). tauto.
  - intros q I. unfold node_roots in I. destruct I as [<-|I].
    + unfold node_tree. rewrite upd_same. assert (RT : map rootof (map tree kids) = kids).
      { rewrite map_map. rewrite <- (map_id kids) at 2. apply map_ext_in. intros k I. apply KR in I. apply (ni_agree _ _ _ _ _ N) in I. tauto. }
      assert (F1 : Forall (agree ((p, kids) :: nodes)) (map tree kids)).
      { apply Forall_map. apply Forall_forall. intros k I. apply agree_other; [apply PN, KR, I|]. apply KR in I. apply (ni_agree _ _ _ _ _ N) in I. tauto. }
      assert (F2 : Forall (agreeG (h ++ [e])) (map tree kids)).
      { apply Forall_map. apply Forall_forall. intros k I. assert (PK := PN k (KR k I)). apply KR in I. apply (ni_agree _ _ _ _ _ N) in I. destruct I as (_ & _ & A). refine (fitting_mono _ _ _ _ A).
        intros y ks J H j. rewrite Eg, <- H. split; [intros [G|[-> _]]; [exact G|contradiction]|auto]. }
      split; [|split; [reflexivity|]].
      * apply fitting_node; [|exact F1]. cbn [kids_of]. rewrite Nat.eqb_refl, RT. reflexivity.
      * apply fitting_node; [|exact F2]. intro k. rewrite Eg, RT. split; [intros [G|[_ G]]; [exfalso; apply FR; exact (proj1 (ni_gave _ _ _ _ _ N _ _ G))|exact G]|auto].
    + apply minus_in in I. destruct I as [I _]. assert (D : q <> p) by (intros ->; apply (ni_roots _ _ _ _ _ N) in I; tauto). unfold node_tree. rewrite upd_ne by exact D.
      destruct (ni_agree _ _ _ _ _ N q I) as (B1 & B2 & B3). split; [apply agree_other; [apply PN, I|exact B1]|]. split; [exact B2|]. refine (fitting_mono _ _ _ _ B3).
      intros y ks J H j. rewrite Eg, <- H. split; [intros [G|[-> _]]; [exact G|exfalso; exact (PN q I J)]|auto].
  - intros q I. apply El in I. destruct (ni_lent _ _ _ _ _ N q I) as [X1 X2]. rewrite Em, En. split; [auto|]. intros [Y|Y]; [contradiction|]. rewrite Forall_forall in K. destruct (K q Y) as (_ & _ & Z). contradiction.
Qed.

(** Adding a child to a node. *)
Definition arg_tree (tree : nat -> rose) (n k : nat) : nat -> rose := upd tree n (match tree n with Node _ ts => Node n (ts ++ [tree k]) end).
Lemma arg_cnt : forall h nodes tree roots nx n k q, ninv h nodes tree roots nx -> (forall q, cnt q (free tree roots) <= 1) -> In n roots -> In k roots -> n <> k ->
  cnt q (free (arg_tree tree n k) (minus roots [k])) = cnt q (free tree roots).
Proof.
  intros h nodes tree roots nx n k q N C In_ Ik D. assert (NR := roots_nodup _ _ _ _ _ N C).
  assert (E1 := cnt_minus tree roots [k] q NR). rewrite E1; [|constructor; [intros []|constructor]|intros y [<-|[]]; exact Ik].
  assert (NM : NoDup (minus roots [k])) by (apply NoDup_filter; exact NR).
  assert (IM : In n (minus roots [k])) by (apply minus_in; split; [exact In_|intros [->|[]]; apply D; reflexivity]).
  rewrite (cnt_minus tree (minus roots [k]) [n] q NM); [|constructor; [intros []|constructor]|intros y [<-|[]]; exact IM].
  rewrite (cnt_minus (arg_tree tree n k) (minus roots [k]) [n] q NM); [|constructor; [intros []|constructor]|intros y [<-|[]]; exact IM].
  unfold arg_tree at 2. rewrite free_upd by (intro I; apply minus_in in I; destruct I as [_ I]; apply I; left; reflexivity).
  unfold free at 1 3 4. cbn [flat_map]. rewrite !app_nil_r. unfold arg_tree. rewrite upd_same.
  destruct (ni_agree _ _ _ _ _ N n In_) as (_ & R & _). destruct (tree n) as [n' ts]. cbn [rootof] in R. subst n'. cbn [labels cnt]. rewrite cnt_end. lia.
Qed.
Lemma ninv_arg : forall h n k a nodes tree roots nx ks, ninv h nodes tree roots nx -> (forall q, cnt q (free tree roots) <= 1) ->
  made_node h n -> ~ given h n -> own h k -> n <> k -> kids_of nodes n = Some ks ->
  ninv (h ++ [(MArg n k, a)]) ((n, ks ++ [k]) :: nodes) (arg_tree tree n k) (minus roots [k]) nx.
Proof.
  intros h n k a nodes tree roots nx ks N C Mn Gn (Mk & Gk & Lk) D KO. set (e := (MArg n k, a)).
  assert (In_ : In n roots) by (apply (ni_roots _ _ _ _ _ N); auto). assert (Ik : In k roots) by (apply (ni_roots _ _ _ _ _ N); auto).
  assert (Em : forall q, made_node (h ++ [e]) q <-> made_node h q).
  { intro q. split; intros [j I]; [apply snoc_in in I; destruct I as [I|E]; [exists j; exact I|discriminate E]|exists j; apply snoc_in; left; exact I]. }
  assert (Eg : forall q j, gave (h ++ [e]) q j <-> gave h q j \/ (q = n /\ j = k)).
  { intros q j. split.
    - intros [[js [I J]]|[b I]]; (apply snoc_in in I; destruct I as [I|E]).
      + left; left; exists js; auto. + discriminate E. + left; right; exists b; exact I. + injection E as <- <- _. right; auto.
    - intros [[[js [I J]]|[b I]]|[-> ->]].
      + left; exists js; split; [apply snoc_in; left; exact I|exact J]. + right; exists b; apply snoc_in; left; exact I. + right. exists a. apply snoc_in; right; reflexivity. }
  assert (Et : forall q, entrusted (h ++ [e]) q <-> entrusted h q).
  { intro q. split; intros (s' & r' & c' & x' & b & I); [apply snoc_in in I; destruct I as [I|E]; [exists s', r', c', x', b; exact I|discriminate E]|exists s', r', c', x', b; apply snoc_in; left; exact I]. }
  assert (El : forall q, lent (h ++ [e]) q <-> lent h q).
  { intro q. split; intros (s' & r' & c' & x' & b & I); [apply snoc_in in I; destruct I as [I|E]; [exists s', r', c', x', b; exact I|discriminate E]|exists s', r', c', x', b; apply snoc_in; left; exact I]. }
  assert (En : forall q, given (h ++ [e]) q <-> given h q \/ q = k).
  { intro q. unfold given. rewrite Et. setoid_rewrite Eg. split.
    - intros [A|[z [A|[_ A]]]]; [left; left; exact A|left; right; exists z; exact A|right; exact A].
    - intros [[A|[z A]]|A]; [left; exact A|right; exists z; left; exact A|right; exists n; right; auto]. }
  assert (RL : forall q, In q roots -> In q (labels (tree q))).
  { intros q I. destruct (ni_agree _ _ _ _ _ N q I) as (_ & R & _). rewrite <- R at 1. apply root_label. }
  assert (NB : ~ belongs h n) by (apply (ni_free _ _ _ _ _ N); exact (free_in _ _ _ _ In_ (RL n In_))).
  assert (Eb : forall q, belongs (h ++ [e]) q <-> belongs h q).
  { intro q. split; intro B; induction B as [q E|q j B IH E].
    - apply belongs_root, Et, E.
    - apply Eg in E. destruct E as [E|[-> _]]; [exact (belongs_kid _ _ _ IH E)|contradiction].
    - apply belongs_root, Et, E.
    - apply (belongs_kid _ q); [exact IH|apply Eg; left; exact E]. }
  assert (PN : forall q, In q roots -> q <> n -> ~ In n (labels (tree q))).
  { intros q I Dq J. exact (free_disjoint tree roots q n n C I In_ Dq J (RL n In_)). }
  constructor.
  - intros q I. apply Em in I. exact (ni_made _ _ _ _ _ N q I).
  - intros q I. apply Em. apply Et in I. exact (ni_trust _ _ _ _ _ N q I).
  - intros q j I. apply Eg in I. rewrite !Em. destruct I as [I|[-> ->]]; [exact (ni_gave _ _ _ _ _ N q j I)|auto].
  - intro q. rewrite minus_in, Em, En, (ni_roots _ _ _ _ _ N). cbn [In]. split; [intros [[A B] E]; split; [exact A|]; intros [G| ->]; tauto|intros [A B]; split; [tauto|]; intros [->|[]]; tauto].
  - intro q. rewrite cnt_In, (arg_cnt h nodes tree roots nx n k q N C In_ Ik D), <- cnt_In, Em, Eb. apply (ni_free _ _ _ _ _ N).
  - intros q I. apply minus_in in I. destruct I as [I _]. destruct (Nat.eq_dec q n) as [->|Dq].
    + unfold arg_tree. rewrite upd_same. destruct (ni_agree _ _ _ _ _ N n In_) as (A1 & A2 & A3). assert (Lc : forall q, cnt q (labels (tree n)) <= 1).
      { intro q. specialize (C q). assert (X := cnt_flat_in (fun p => labels (tree p)) roots n q In_). cbn beta in X. unfold free in C. lia. }
      destruct (tree n) as [n' ts]. cbn [rootof] in A2. subst n'. inversion A1 as [? ? A11 A12]; subst. inversion A3 as [? ? A31 A32]; subst.
      assert (NT : forall t, In t ts -> ~ In n (labels t)).
      { intros t It J. specialize (Lc n). cbn [labels cnt] in Lc. rewrite one_same in Lc. assert (X := cnt_flat_in labels ts t n It). apply cnt_In in J. lia. }
      destruct (ni_agree _ _ _ _ _ N k Ik) as (B1 & B2 & B3). assert (NK : ~ In n (labels (tree k))) by (apply PN; [exact Ik|congruence]).
      rewrite KO in A11. injection A11 as ->.
      split; [|split; [reflexivity|]].
      * apply fitting_node; [cbn [kids_of]; rewrite Nat.eqb_refl, map_app; cbn [map]; rewrite B2; reflexivity|]. apply Forall_app. split.
        -- rewrite Forall_forall in A12 |- *. intros t It. apply agree_other; [exact (NT t It)|exact (A12 t It)].
        -- constructor; [apply agree_other; assumption|constructor].
      * apply fitting_node.
        -- intro j. rewrite Eg, map_app, in_app_iff, A31. cbn [map In]. rewrite B2. split; [intros [G|[_ ->]]; auto|intros [G|[<-|[]]]; auto].
        -- apply Forall_app. split.
           ++ rewrite Forall_forall in A32 |- *. intros t It. refine (fitting_mono _ _ _ _ (A32 t It)). intros y js J H j. rewrite Eg, <- H. split; [intros [G|[-> _]]; [exact G|exfalso; exact (NT t It J)]|auto].
           ++ constructor; [|constructor]. refine (fitting_mono _ _ _ _ B3). intros y js J H j. rewrite Eg, <- H. split; [intros [G|[-> _]]; [exact G|contradiction]|auto].
    + unfold arg_tree. rewrite upd_ne by exact Dq. destruct (ni_agree _ _ _ _ _ N q I) as (B1 & B2 & B3). split; [apply agree_other; [exact (PN q I Dq)|exact B1]|]. split; [exact B2|].
      refine (fitting_mono _ _ _ _ B3). intros y js J H j. rewrite Eg, <- H. split; [intros [G|[-> _]]; [exact G|exfalso; exact (PN q I Dq J)]|auto].
  - intros q I. apply El in I. destruct (ni_lent _ _ _ _ _ N q I) as [X1 X2]. rewrite Em, En. split; [exact X1|]. intros [Y| ->]; contradiction.
Qed.
