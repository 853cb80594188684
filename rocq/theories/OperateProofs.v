From Verif Require Import IpNet Inf Spec Operate SpecOperate.
Open Scope nat_scope.

(* ---- heaps ---- *)
Lemma nth_upd {A} (l : list A) i x j d :
  nth j (upd l i x) d = if (i =? j) && (i <? length l) then x else nth j l d.
Proof.
  revert i j; induction l as [|a l IH]; intros [|i] [|j]; simpl; try reflexivity.
  - destruct (_ =? _); reflexivity.
  - rewrite IH. reflexivity.
Qed.

Lemma upd_nil_iff {A} (l : list A) i x : length l <= i -> upd l i x = l.
Proof. revert i; induction l as [|a l IH]; intros [|i] H; simpl in *; try reflexivity; [lia|]. f_equal. apply IH. lia. Qed.

Lemma arr_hset h s i v a :
  arr (hset h s i v) a = if a =? sArr s then upd (arr h a) i v else arr h a.
Proof.
  unfold hset, arr. rewrite nth_upd.
  destruct (Nat.eqb_spec a (sArr s)) as [->|N].
  - rewrite Nat.eqb_refl. destruct (Nat.ltb_spec (sArr s) (length h)); [reflexivity|].
    cbn. rewrite nth_overflow by assumption. destruct i; reflexivity.
  - destruct (Nat.eqb_spec (sArr s) a); [congruence|reflexivity].
Qed.

Lemma hset_length h s i v : length (hset h s i v) = length h.
Proof. apply upd_length. Qed.

Lemma arr_length_hset h s i v a : length (arr (hset h s i v) a) = length (arr h a).
Proof. rewrite arr_hset. destruct (_ =? _); [apply upd_length|reflexivity]. Qed.

Lemma firstn_upd {A} (l : list A) n i x : firstn n (upd l i x) = upd (firstn n l) i x.
Proof.
  revert n i; induction l as [|a l IH]; intros [|n] [|i]; simpl; try reflexivity.
  f_equal. apply IH.
Qed.

Lemma view_hset h s i v s' :
  view (hset h s i v) s' = if sArr s' =? sArr s then upd (view h s') i v else view h s'.
Proof.
  unfold view. rewrite arr_hset. destruct (_ =? _); [apply firstn_upd|reflexivity].
Qed.

Lemma view_length h s : legal_slc h s -> length (view h s) = sLen s.
Proof. intros [_ L]. unfold view. rewrite firstn_length. lia. Qed.

Lemma arr_app h x a : a < length h -> arr (h ++ [x]) a = arr h a.
Proof. intros H. unfold arr. apply app_nth1. assumption. Qed.
Lemma arr_last h x : arr (h ++ [x]) (length h) = x.
Proof. unfold arr. rewrite app_nth2, Nat.sub_diag by lia. reflexivity. Qed.
Lemma view_app h x s : legal_slc h s -> view (h ++ [x]) s = view h s.
Proof. intros [H _]. unfold view. rewrite arr_app by assumption. reflexivity. Qed.
Lemma legal_app h x s : legal_slc h s -> legal_slc (h ++ [x]) s.
Proof. intros [H L]. split; [rewrite app_length; lia|]. rewrite arr_app by assumption. assumption. Qed.
Lemma legal_hset h s i v s' : legal_slc h s' -> legal_slc (hset h s i v) s'.
Proof. intros [H L]. split; [rewrite hset_length; assumption|]. rewrite arr_length_hset. assumption. Qed.

Lemma nth_error_ext {A} (l m : list A) : (forall i, nth_error l i = nth_error m i) -> l = m.
Proof.
  revert m; induction l as [|a l IH]; intros [|b m] H; [reflexivity| | |].
  - specialize (H 0). discriminate.
  - specialize (H 0). discriminate.
  - f_equal; [specialize (H 0); cbn in H; congruence|]. apply IH. intros i. apply (H (S i)).
Qed.
Lemma nth_error_firstn {A} n (l : list A) i :
  nth_error (firstn n l) i = if i <? n then nth_error l i else None.
Proof.
  revert l i; induction n as [|n IH]; intros l i.
  - cbn. destruct i; reflexivity.
  - destruct l as [|a l]; [rewrite firstn_nil; destruct i as [|i]; [reflexivity|]; destruct (S i <? S n); reflexivity|].
    destruct i as [|i]; [reflexivity|]. cbn [firstn nth_error]. rewrite IH. reflexivity.
Qed.

(* ---- induction over the row loop ---- *)
Lemma each_row_ind grow body (P : nat -> list hrow -> heap -> list hrow -> Prop) :
  (forall k done h n s todo, P k done h ((n, s) :: todo) ->
     exists a h1 s1, body k n (view h s) = Ok a /\ perform grow h s a = Ok (h1, s1) /\
       P (S k) (done ++ [(n, s1)]) h1 todo) ->
  forall rows k done h, P k done h rows ->
  exists k' h' rows', each_row grow body k h rows = Ok (h', rows') /\ P k' (done ++ rows') h' [].
Proof.
  intros Step. induction rows as [|[n s] rows IH]; intros k done h H.
  - exists k, h, []. split; [reflexivity|]. rewrite app_nil_r. assumption.
  - destruct (Step _ _ _ _ _ _ H) as (a & h1 & s1 & E1 & E2 & H1).
    destruct (IH _ _ _ H1) as (k' & h' & rows' & E3 & H2).
    exists k', h', ((n, s1) :: rows'). cbn [each_row]. rewrite E1. cbn [bind]. rewrite E2. cbn [bind].
    rewrite E3. cbn [bind]. split; [reflexivity|]. rewrite <- app_assoc in H2. exact H2.
Qed.

(* ---- loops that append ---- *)
Definition applied (a : act) (v : list bytes) : list bytes :=
  match a with Keep => v | Put i x => upd v i x | App x => v ++ [x] end.

Definition appends (a : act) : Prop := match a with Put _ _ => False | _ => True end.

Lemma perform_app grow h s a : appends a -> legal_slc h s ->
  exists h1 s1, perform grow h s a = Ok (h1, s1).
Proof. destruct a; cbn; intros H _; [eauto|contradiction|]. destruct (happend grow h s v); eauto. Qed.

Section Appending.
Variables (grow : nat -> nat) (body : nat -> IPNet -> list bytes -> res act)
          (g : IPNet -> list bytes -> act) (h0 : heap) (rows0 : list hrow).
Hypothesis Legal : Forall (fun r => legal_slc h0 (snd r)) rows0.
Hypothesis Body : forall k n s, In (n, s) rows0 -> body k n (view h0 s) = Ok (g n (view h0 s)).
Hypothesis Apps : forall n s, In (n, s) rows0 -> appends (g n (view h0 s)).
Hypothesis Share : forall n s n' s', In (n, s) rows0 -> In (n', s') rows0 -> sArr s = sArr s' ->
  (sLen s = length (arr h0 (sArr s)) /\ sLen s' = length (arr h0 (sArr s))) \/
  (sLen s = sLen s' /\ g n (view h0 s) = g n' (view h0 s')).

Record done_ok (h : heap) (r0 r1 : hrow) : Prop := {
  do_net : fst r1 = fst r0;
  do_legal : legal_slc h (snd r1);
  do_view : view h (snd r1) = applied (g (fst r0) (view h0 (snd r0))) (view h0 (snd r0));
  do_how : snd r1 = snd r0 \/
    (sArr (snd r1) = sArr (snd r0) /\ sLen (snd r1) = S (sLen (snd r0)) /\
       sLen (snd r0) < length (arr h0 (sArr (snd r0))) /\
       exists x, g (fst r0) (view h0 (snd r0)) = App x) \/
    length h0 <= sArr (snd r1) }.

Record inv (k : nat) (done : list hrow) (h : heap) (todo : list hrow) : Prop := {
  i_pre : exists pre, rows0 = pre ++ todo /\ Forall2 (done_ok h) pre done;
  i_todo : forall r, In r todo -> view h (snd r) = view h0 (snd r);
  i_cap : forall a, a < length h0 -> length (arr h a) = length (arr h0 a);
  i_len : length h0 <= length h }.

Lemma app_step k done h n s todo : inv k done h ((n, s) :: todo) ->
  exists a h1 s1, body k n (view h s) = Ok a /\ perform grow h s a = Ok (h1, s1) /\
    inv (S k) (done ++ [(n, s1)]) h1 todo.
Proof.
  intros [[pre [Epre Hdone]] Htodo Hcap Hlen].
  assert (In (n, s) rows0) as Hin by (rewrite Epre; apply in_or_app; right; left; reflexivity).
  assert (legal_slc h0 s) as L0.
  { pose proof Legal as LL. rewrite Forall_forall in LL. exact (LL _ Hin). }
  assert (view h s = view h0 s) as Ev by (apply (Htodo (n, s)); left; reflexivity).
  assert (legal_slc h s) as L.
  { destruct L0 as [A B]. split; [lia|]. rewrite Hcap by assumption. assumption. }
  exists (g n (view h0 s)).
  rewrite Ev, (Body k n s Hin).
  pose proof (Apps n s Hin) as Ap.
  destruct (g n (view h0 s)) as [|i x|x] eqn:Eg; [|contradiction|].
  - exists h, s. cbn [perform]. repeat (split; [reflexivity|]). constructor.
    + exists (pre ++ [(n, s)]). rewrite <- app_assoc. split; [assumption|].
      apply Forall2_app; [assumption|]. constructor; [|constructor]. constructor; cbn [fst snd].
      * reflexivity.
      * assumption.
      * rewrite Eg. cbn. assumption.
      * left. reflexivity.
    + intros r Hr. apply Htodo. right. assumption.
    + assumption.
    + assumption.
  - cbn [perform]. unfold happend. destruct (Nat.ltb_spec (sLen s) (length (arr h (sArr s)))) as [Room|Full].
    + exists (hset h s (sLen s) x), (mkSlc (sArr s) (S (sLen s))). repeat (split; [reflexivity|]).
      assert (sLen s < length (arr h0 (sArr s))) as Room0.
      { rewrite <- Hcap by apply L0. assumption. }
      assert (forall r, In r rows0 -> sArr (snd r) = sArr s ->
                sLen (snd r) = sLen s /\ g (fst r) (view h0 (snd r)) = App x) as Same.
      { intros [n' s'] Hr E. cbn in E. destruct (Share n s n' s' Hin Hr (eq_sym E)) as [[F _]|[F G]]; [lia|].
        cbn [fst snd]. split; [congruence|]. congruence. }
      constructor.
      * exists (pre ++ [(n, s)]). rewrite <- app_assoc. split; [assumption|].
        apply Forall2_app; [|constructor; [|constructor]].
        -- assert (forall r, In r pre -> In r rows0) as Sub
             by (intros r Hr; rewrite Epre; apply in_or_app; left; assumption).
           clear Epre. induction Hdone as [|r0 r1 pre done D Hdone IH]; [constructor|].
           constructor; [|apply IH; intros r Hr; apply Sub; right; assumption].
           clear IH Hdone. specialize (Sub r0 (or_introl eq_refl)). destruct D as [D1 D2 D3 D4].
           constructor; [assumption|apply legal_hset; assumption| |assumption].
           rewrite view_hset. destruct (Nat.eqb_spec (sArr (snd r1)) (sArr s)) as [E|NE]; [|assumption].
           rewrite D3.
           destruct D4 as [D4|[[D4 [D5 [D6 D7]]]|D4]].
           ++ rewrite D4 in E. destruct (Same _ Sub E) as [S1 S2].
              rewrite S2 in D3. exfalso. rewrite D4 in D3, D2. 
              assert (length (view h (snd r0)) = length (view h0 (snd r0) ++ [x])) as F by (rewrite D3; reflexivity).
              rewrite view_length, app_length in F by assumption.
              pose proof Legal as LL. rewrite Forall_forall in LL. specialize (LL _ Sub).
              rewrite view_length in F by assumption. cbn in F. lia.
           ++ rewrite D4 in E. destruct (Same _ Sub E) as [S1 S2]. rewrite S2. cbn [applied].
              pose proof Legal as LL. rewrite Forall_forall in LL. specialize (LL _ Sub).
              rewrite <- S1, <- (view_length h0 (snd r0)) by assumption.
              generalize (view h0 (snd r0)) as v. clear. induction v as [|y v IH]; [reflexivity|].
              cbn. f_equal. apply IH.
           ++ exfalso. destruct L0. lia.
        -- constructor; cbn [fst snd].
           ++ reflexivity.
           ++ destruct L. split; cbn [sArr sLen]; [rewrite hset_length; assumption|].
              rewrite arr_length_hset. lia.
           ++ rewrite view_hset. cbn [sArr]. rewrite Nat.eqb_refl. rewrite Eg. cbn [applied].
              rewrite <- Ev. unfold view. cbn [sArr sLen].
              revert Room. generalize (arr h (sArr s)) as l. generalize (sLen s) as m. clear.
              induction m as [|m IH]; intros [|y l] R; cbn in *; try lia; [reflexivity|].
              f_equal. apply IH. lia.
           ++ right. left. cbn [sArr sLen]. repeat (split; [reflexivity || assumption|]). exists x. assumption.
      * intros r Hr. rewrite view_hset.
        destruct (Nat.eqb_spec (sArr (snd r)) (sArr s)) as [E|NE]; [|apply Htodo; right; assumption].
        rewrite Htodo by (right; assumption).
        assert (In r rows0) as Hr0 by (rewrite Epre; apply in_or_app; right; right; assumption).
        destruct (Same r Hr0 E) as [S1 S2]. apply upd_nil_iff.
        pose proof Legal as LL. rewrite Forall_forall in LL. specialize (LL _ Hr0).
        rewrite view_length by assumption. lia.
      * intros a Ha. rewrite arr_length_hset. apply Hcap. assumption.
      * rewrite hset_length. assumption.
    + exists (h ++ [view h s ++ x :: repeat [] (grow (sLen s))]), (mkSlc (length h) (S (sLen s))).
      repeat (split; [reflexivity|]).
      constructor.
      * exists (pre ++ [(n, s)]). rewrite <- app_assoc. split; [assumption|].
        apply Forall2_app; [|constructor; [|constructor]].
        -- clear Epre. induction Hdone as [|r0 r1 pre done D Hdone IH]; [constructor|].
           constructor; [|apply IH]. destruct D as [D1 D2 D3 D4].
           constructor; [assumption|apply legal_app; assumption|rewrite view_app by assumption; assumption|assumption].
        -- pose proof (view_length h s L) as VL.
           constructor; cbn [fst snd].
           ++ reflexivity.
           ++ split; cbn [sArr sLen]; [rewrite app_length; cbn; lia|].
              rewrite arr_last, app_length. cbn [length]. lia.
           ++ unfold view at 1. cbn [sArr sLen]. rewrite arr_last.
              replace (S (sLen s)) with (length (view h s) + 1) by lia.
              rewrite firstn_app_2. cbn [firstn]. rewrite Eg, Ev. reflexivity.
           ++ right. right. cbn [sArr]. assumption.
      * intros r Hr. assert (In r rows0) as Hr0 by (rewrite Epre; apply in_or_app; right; right; assumption).
        pose proof Legal as LL. rewrite Forall_forall in LL. specialize (LL _ Hr0).
        rewrite view_app; [apply Htodo; right; assumption|].
        destruct LL as [A B]. split; [lia|]. rewrite Hcap by assumption. assumption.
      * intros a Ha. rewrite arr_app by lia. apply Hcap. assumption.
      * rewrite app_length. lia.
Qed.

Lemma each_row_app :
  exists h' rows', each_row grow body 0 h0 rows0 = Ok (h', rows') /\
    Forall (fun r => legal_slc h' (snd r)) rows' /\
    map (fun r => mkRaw (fst r) (view h' (snd r))) rows' =
    map (fun r => mkRaw (fst r) (applied (g (fst r) (view h0 (snd r))) (view h0 (snd r)))) rows0.
Proof.
  destruct (each_row_ind grow body inv app_step rows0 0 [] h0) as (k' & h' & rows' & E & [[pre [Epre D]] _ _ _]).
  - constructor; auto. exists []. split; [reflexivity|constructor].
  - exists h', rows'. split; [assumption|]. rewrite app_nil_r in Epre. subst pre. cbn [app] in D.
    clear - D. split.
    + induction D; constructor; [apply do_legal in H; assumption|assumption].
    + induction D; [reflexivity|]. cbn [map]. rewrite IHD. f_equal. destruct H as [D1 D2 D3 D4]. congruence.
Qed.
End Appending.

(* ---- loops that only assign ---- *)
Definition puts (a : act) : Prop := match a with App _ => False | _ => True end.

Section Putting.
Variables (grow : nat -> nat) (body : nat -> IPNet -> list bytes -> res act) (h0 : heap) (rows0 : list hrow).
Hypothesis Legal : Forall (fun r => legal_slc h0 (snd r)) rows0.
(** [Q pre v0 v]: after the rows [pre], a slice that held v0 holds v. *)
Variable Q : list hrow -> slc -> list bytes -> Prop.
Hypothesis Start : forall s, In s (map snd rows0) -> Q [] s (view h0 s).
Hypothesis Step : forall pre n s todo v, rows0 = pre ++ (n, s) :: todo -> Q pre s v -> length v = sLen s ->
  exists a, body (length pre) n v = Ok a /\ puts a /\
    match a with Put i _ => i < sLen s | _ => True end /\
    forall s' v', In s' (map snd rows0) -> Q pre s' v' -> length v' = sLen s' ->
      (sArr s' = sArr s -> firstn (Nat.min (sLen s) (sLen s')) v' = firstn (Nat.min (sLen s) (sLen s')) v) ->
      Q (pre ++ [(n, s)]) s' (if sArr s' =? sArr s then applied a v' else v').

Lemma each_row_put :
  exists h', each_row grow body 0 h0 rows0 = Ok (h', rows0) /\ length h' = length h0 /\
    Forall (fun r => legal_slc h' (snd r)) rows0 /\
    forall s, In s (map snd rows0) -> Q rows0 s (view h' s).
Proof.
  set (P := fun (k : nat) (done : list hrow) (h : heap) (todo : list hrow) =>
    k = length done /\ rows0 = done ++ todo /\ length h = length h0 /\
    (forall a, length (arr h a) = length (arr h0 a)) /\
    forall s, In s (map snd rows0) -> Q done s (view h s)).
  assert (forall s h, In s (map snd rows0) -> length h = length h0 ->
            (forall a, length (arr h a) = length (arr h0 a)) -> legal_slc h s) as LegalH.
  { intros s h Hs E1 E2. apply in_map_iff in Hs as [r [<- Hr]].
    pose proof Legal as LL. rewrite Forall_forall in LL. destruct (LL _ Hr) as [A B].
    split; [lia|]. rewrite E2. assumption. }
  destruct (each_row_ind grow body P) with (rows := rows0) (k := 0) (done := @nil hrow) (h := h0)
    as (k' & h' & rows' & E & P1 & P2 & P3 & P4 & P5).
  - intros k done h n s todo (P1 & P2 & P3 & P4 & P5).
    assert (In s (map snd rows0)) as Hs.
    { rewrite P2, map_app. apply in_or_app. right. left. reflexivity. }
    pose proof (LegalH s h Hs P3 P4) as L.
    destruct (Step done n s todo (view h s) P2 (P5 s Hs) (view_length _ _ L)) as (a & B1 & B2 & B3 & B4).
    exists a. subst k.
    assert (forall s', In s' (map snd rows0) ->
              sArr s' = sArr s -> firstn (Nat.min (sLen s) (sLen s')) (view h s') = firstn (Nat.min (sLen s) (sLen s')) (view h s)) as Agree.
    { intros s' _ Es. unfold view. rewrite Es, !firstn_firstn. f_equal. lia. }
    destruct a as [|i x|x]; [| |contradiction].
    + exists h, s. split; [assumption|]. split; [reflexivity|]. repeat split.
      * rewrite app_length. cbn. lia.
      * rewrite <- app_assoc. exact P2.
      * assumption.
      * assumption.
      * intros s' Hs'. specialize (B4 s' (view h s') Hs' (P5 s' Hs') (view_length _ _ (LegalH s' h Hs' P3 P4)) (Agree s' Hs')).
        cbn [applied] in B4. destruct (_ =? _); exact B4.
    + exists (hset h s i x), s. split; [assumption|]. cbn [perform].
      replace (i <? sLen s) with true by lia. split; [reflexivity|]. repeat split.
      * rewrite app_length. cbn. lia.
      * rewrite <- app_assoc. exact P2.
      * rewrite hset_length. assumption.
      * intros b. rewrite arr_length_hset. apply P4.
      * intros s' Hs'. specialize (B4 s' (view h s') Hs' (P5 s' Hs') (view_length _ _ (LegalH s' h Hs' P3 P4)) (Agree s' Hs')).
        rewrite view_hset. exact B4.
  - repeat split; auto.
  - cbn [app] in *. rewrite app_nil_r in P2. subst rows'. exists h'. split; [assumption|]. split; [assumption|].
    split; [|assumption]. apply Forall_forall. intros r Hr. apply LegalH; auto. apply in_map. assumption.
Qed.
End Putting.
