(** Property theorems C76: the command line of the converter. *)
From Coq Require Import ZArith List Lia.
From Verif Require Import Base NetIP Operate NetText Facade Convert Flags.
Import ListNotations.
Open Scope nat_scope.

(* ---------- specification: settings and how they are spelled ---------- *)
Inductive setting := Input (file : bytes) | Output (files : bytes) | RuleText (r : bytes) | LineFile (file : bytes) | Replace (b : bool).
(** The settings that are texts, with the name of their option. *)
Definition text_setting (name v : bytes) (s : setting) : Prop :=
  (name = str "i" /\ s = Input v) \/ (name = str "o" /\ s = Output v) \/ (name = str "r" /\ s = RuleText v) \/ (name = str "line" /\ s = LineFile v).
(** -name or --name *)
Definition dashed (name w : bytes) : Prop := w = str "-" ++ name \/ w = str "--" ++ name.
Definition means (v : bytes) (b : bool) : Prop :=
  if b then In v [str "1"; str "t"; str "T"; str "true"; str "TRUE"; str "True"]
  else In v [str "0"; str "f"; str "F"; str "false"; str "FALSE"; str "False"].
(** -i file; -i=file; -line-replace; -line-replace=true *)
Inductive spelled : setting -> list bytes -> Prop :=
| two_words name v s w : text_setting name v s -> dashed name w -> spelled s [w; v]
| one_word name v s w : text_setting name v s -> dashed name w -> spelled s [w ++ str "=" ++ v]
| switch w : dashed (str "line-replace") w -> spelled (Replace true) [w]
| truth v b w : dashed (str "line-replace") w -> means v b -> spelled (Replace b) [w ++ str "=" ++ v].
Definition apply (o : opts) (s : setting) : opts :=
  match s with
  | Input v => mkOpts v (oOutput o) (oRule o) (oLine o) (oReplace o)
  | Output v => mkOpts (oInput o) v (oRule o) (oLine o) (oReplace o)
  | RuleText v => mkOpts (oInput o) (oOutput o) v (oLine o) (oReplace o)
  | LineFile v => mkOpts (oInput o) (oOutput o) (oRule o) v (oReplace o)
  | Replace b => mkOpts (oInput o) (oOutput o) (oRule o) (oLine o) b
  end.
(** No input, no output, the default rule, no line file, lines attached and not replaced. *)
Definition unset : opts := mkOpts [] [] (str "default") [] false.
(** Nothing, or a word that does not start with a dash or is just a dash, or two dashes. *)
Definition no_option (w : bytes) : Prop := (forall c r, w <> x2d :: c :: r) \/ w = str "--".
Definition ends (rest : list bytes) : Prop := match rest with [] => True | w :: _ => no_option w end.
Definition help_word (w : bytes) : Prop :=
  exists name w0, (name = str "h" \/ name = str "help") /\ dashed name w0 /\ (w = w0 \/ exists v, w = w0 ++ str "=" ++ v).

(* ---------- words ---------- *)
Lemma cut_split c s a b : cut c s = Some (a, b) -> s = a ++ c :: b.
Proof.
  revert a b. induction s as [|x s IH]; intros a b H; cbn [cut] in H; [discriminate|].
  destruct (byte_eqb_spec x c) as [-> |N]; [injection H as <- <-; reflexivity|].
  destruct (cut c s) as [[a' b']|]; [|discriminate]. injection H as <- <-. cbn [app]. f_equal. apply IH. reflexivity.
Qed.
Lemma read_stop w : no_option w <-> read_word w = Stop.
Proof.
  unfold no_option. split.
  - intros [H| ->]; [|reflexivity]. destruct w as [|d [|c r]]; try reflexivity. cbn [read_word].
    destruct (byte_eqb_spec d x2d) as [-> |N]; [exfalso; apply (H c r); reflexivity|reflexivity].
  - intros H. destruct w as [|d [|c r]]; [left; discriminate|left; discriminate|]. cbn [read_word] in H.
    destruct (byte_eqb_spec d x2d) as [-> |N]; [|left; congruence]. cbn [negb] in H.
    destruct (byte_eqb_spec c x2d) as [-> |N].
    + destruct r as [|n t]; [right; reflexivity|]. cbn [andb is_nil] in H. destruct (_ || _); [discriminate|]. destruct (cut x3d t) as [[a v]|]; discriminate.
    + cbn [andb] in H. destruct (_ || _); [discriminate|]. destruct (cut x3d r) as [[a v]|]; discriminate.
Qed.
Lemma read_named w name value : read_word w = Named name value ->
  exists w0, dashed name w0 /\ w = match value with Some v => w0 ++ str "=" ++ v | None => w0 end.
Proof.
  intros H. destruct w as [|d [|c r]]; [discriminate|discriminate|]. cbn [read_word] in H.
  destruct (byte_eqb_spec d x2d) as [-> |N]; [|discriminate]. cbn [negb] in H.
  assert (forall n t, (match cut x3d t with Some (a, v) => Named (n :: a) (Some v) | None => Named (n :: t) None end) = Named name value ->
            n :: t = match value with Some v => name ++ str "=" ++ v | None => name end) as K.
  { intros n t K. destruct (cut x3d t) as [[a v]|] eqn:C; injection K as <- <-; [|reflexivity]. apply cut_split in C as ->. reflexivity. }
  destruct (byte_eqb_spec c x2d) as [-> |N].
  - destruct r as [|n t]; [discriminate|]. cbn [andb is_nil] in H. destruct (_ || _); [discriminate|]. apply K in H.
    exists (str "--" ++ name). split; [right; reflexivity|]. change (x2d :: x2d :: n :: t) with (str "--" ++ n :: t). rewrite H.
    destruct value; [rewrite <- app_assoc|]; reflexivity.
  - cbn [andb] in H. destruct (_ || _); [discriminate|]. apply K in H.
    exists (str "-" ++ name). split; [left; reflexivity|]. change (x2d :: c :: r) with (str "-" ++ c :: r). rewrite H.
    destruct value; [rewrite <- app_assoc|]; reflexivity.
Qed.
Lemma parse_bool_spec v b : parse_bool v = Some b <-> means v b.
Proof.
  unfold parse_bool, means. 
  assert (forall a, in_array v a = true <-> In v a) as I.
  { intros a. unfold in_array. rewrite existsb_exists. split; [intros (x & I & E)|intros I; exists v; split; [assumption|apply bytes_eqb_refl]].
    destruct (bytes_eqb_spec x v) as [-> |]; [assumption|]. destruct (bytes_eqb_spec v x) as [<-|]; [assumption|discriminate]. }
  destruct (in_array v [str "1"; _; _; _; _; _]) eqn:T.
  - apply I in T. split; [intros [= <-]; assumption|]. destruct b; [reflexivity|]. intros F. exfalso. clear I. cbn [In] in T, F.
    repeat (destruct T as [<-|T]); try destruct T; vm_compute in F; intuition discriminate.
  - destruct (in_array v [str "0"; _; _; _; _; _]) eqn:F.
    + apply I in F. split; [intros [= <-]; assumption|]. destruct b; [|reflexivity]. intros Q. apply I in Q. congruence.
    + split; [discriminate|]. intros Q. exfalso. destruct b; apply I in Q; congruence.
Qed.
Lemma formal_name name n : formal name = Some n ->
  (n = NReplace /\ name = str "line-replace") \/ (n <> NReplace /\ forall v o, exists s, text_setting name v s /\ set_opt n v o = Some (apply o s)).
Proof.
  unfold formal, text_setting.
  destruct (bytes_eqb_spec name (str "i")) as [-> |]; [intros [= <-]; right; split; [discriminate|]; intros v o; exists (Input v); split; [tauto|reflexivity]|].
  destruct (bytes_eqb_spec name (str "o")) as [-> |]; [intros [= <-]; right; split; [discriminate|]; intros v o; exists (Output v); split; [tauto|reflexivity]|].
  destruct (bytes_eqb_spec name (str "r")) as [-> |]; [intros [= <-]; right; split; [discriminate|]; intros v o; exists (RuleText v); split; [tauto|reflexivity]|].
  destruct (bytes_eqb_spec name (str "line")) as [-> |]; [intros [= <-]; right; split; [discriminate|]; intros v o; exists (LineFile v); split; [tauto|reflexivity]|].
  destruct (bytes_eqb_spec name (str "line-replace")) as [-> |]; [intros [= <-]; left; auto|discriminate].
Qed.

Lemma flat_map_none {A B} (f : A -> list B) l : (forall x, In x l -> f x = []) -> flat_map f l = [].
Proof. induction l as [|x l IH]; intros H; [reflexivity|]. cbn [flat_map]. rewrite (H x (or_introl eq_refl)), IH; [reflexivity|]. intros y I. apply H. right. assumption. Qed.

(** One setting in front of the rest. *)
Lemma parse_step s ws rest o : spelled s ws -> parse_flags (ws ++ rest) o = parse_flags rest (apply o s).
Proof.
  intros H. destruct H as [name v s w T D|name v s w T D|w D|v b w D M].
  - destruct T as [[-> ->]|[[-> ->]|[[-> ->]|[-> ->]]]]; destruct D as [-> | ->]; reflexivity.
  - destruct T as [[-> ->]|[[-> ->]|[[-> ->]|[-> ->]]]]; destruct D as [-> | ->]; reflexivity.
  - destruct D as [-> | ->]; reflexivity.
  - apply parse_bool_spec in M. destruct D as [-> | ->]; cbn -[parse_bool]; rewrite M; reflexivity.
Qed.
Lemma parse_steps ss ws rest o : Forall2 spelled ss ws -> parse_flags (concat ws ++ rest) o = parse_flags rest (fold_left apply ss o).
Proof.
  intros F. revert o. induction F as [|s w ss ws H F IH]; intros o; [reflexivity|]. cbn [concat fold_left]. rewrite <- app_assoc, (parse_step s) by assumption. apply IH.
Qed.
(** The other way round: an end, a setting, a request for help or a mistake. *)
Lemma parse_inv args o : (ends args /\ parse_flags args o = Go o) \/
  (exists s ws rest, spelled s ws /\ ws <> [] /\ args = ws ++ rest) \/
  (exists w r, args = w :: r /\ help_word w /\ parse_flags args o = Exit 0) \/
  (ends args -> False) /\ parse_flags args o = Exit 2.
Proof.
  destruct args as [|w rest]; [left; split; [exact I|reflexivity]|].
  cbn [parse_flags ends]. destruct (read_word w) as [| |name value] eqn:R.
  - left. split; [apply read_stop; assumption|reflexivity].
  - right. right. right. split; [|reflexivity]. intros X. apply read_stop in X. congruence.
  - assert (no_option w -> False) as NO by (intros X; apply read_stop in X; congruence).
    destruct (read_named _ _ _ R) as (w0 & D & ->). destruct (formal name) as [n|] eqn:Fn.
    + destruct (formal_name _ _ Fn) as [[-> ->]|[Nn S]].
      * cbn [set_opt]. destruct value as [v|].
        -- destruct (parse_bool v) as [b|] eqn:P.
           ++ right. left. exists (Replace b), [w0 ++ str "=" ++ v], rest. split; [constructor; [assumption|apply parse_bool_spec; assumption]|]. split; [discriminate|reflexivity].
           ++ right. right. right. split; [assumption|reflexivity].
        -- right. left. exists (Replace true), [w0], rest. split; [constructor; assumption|]. split; [discriminate|reflexivity].
      * destruct value as [v|].
        -- right. left. destruct (S v o) as (s & T & E). exists s, [w0 ++ str "=" ++ v], rest. split; [econstructor; eassumption|]. split; [discriminate|reflexivity].
        -- destruct rest as [|v rest].
           ++ right. right. right. split; [assumption|]. destruct n; congruence.
           ++ right. left. destruct (S v o) as (s & T & E). exists s, [w0; v], rest. split; [econstructor; eassumption|]. split; [discriminate|reflexivity].
    + destruct (bytes_eqb_spec name (str "help")) as [Eh|Nh]; [|destruct (bytes_eqb_spec name (str "h")) as [Eh|Nh2]].
      * right. right. left. eexists _, rest. split; [reflexivity|]. split; [|reflexivity]. exists name, w0. split; [auto|]. split; [assumption|]. destruct value; eauto.
      * right. right. left. eexists _, rest. split; [reflexivity|]. split; [|reflexivity]. exists name, w0. split; [auto|]. split; [assumption|]. destruct value; eauto.
      * right. right. right. split; [assumption|reflexivity].
Qed.

(** C76: the program goes on exactly when its arguments are settings, in any of their spellings and any order,
    and then nothing or a word that is no option; what follows that word is ignored. *)
Theorem C76_options : forall args o, parse_flags args default_opts = Go o <->
  exists ss ws rest, args = concat ws ++ rest /\ Forall2 spelled ss ws /\ ends rest /\ o = fold_left apply ss unset.
Proof.
  assert (forall n args o0 o, length args <= n -> parse_flags args o0 = Go o ->
    exists ss ws rest, args = concat ws ++ rest /\ Forall2 spelled ss ws /\ ends rest /\ o = fold_left apply ss o0) as G.
  { induction n as [|n IH]; intros args o0 o L H.
    - destruct args; [|cbn in L; lia]. injection H as <-. exists [], [], []. repeat split; constructor.
    - destruct (parse_inv args o0) as [[E P]|[(s & ws & rest & S & N & ->)|[(w & r & _ & _ & P)|[_ P]]]].
      + rewrite P in H. injection H as <-. exists [], [], args. repeat split; [constructor|assumption].
      + rewrite (parse_step s) in H by assumption. rewrite app_length in L. destruct ws as [|w ws]; [congruence|]. cbn [length] in L.
        destruct (IH rest (apply o0 s) o ltac:(lia) H) as (ss & ws' & rest' & -> & F & E & ->).
        exists (s :: ss), ((w :: ws) :: ws'), rest'. cbn [concat fold_left]. rewrite <- app_assoc. repeat split; [constructor; assumption|assumption].
      + congruence.
      + congruence. }
  change unset with default_opts. intros args o. split; [apply (G (length args)); lia|]. intros (ss & ws & rest & -> & F & E & ->).
  rewrite (parse_steps ss) by assumption. destruct rest as [|w r]; [reflexivity|]. cbn [parse_flags ends] in *. apply read_stop in E. rewrite E. reflexivity.
Qed.
Print Assumptions C76_options.

(** C76: otherwise it ends with status 0 after a request for help, and with status 2 after any mistake. *)
Theorem C76_exit : forall args,
  (parse_flags args default_opts = Exit 0 <-> exists ss ws w r, args = concat ws ++ w :: r /\ Forall2 spelled ss ws /\ help_word w) /\
  (forall status, parse_flags args default_opts = Exit status -> status = 0%Z \/ status = 2%Z).
Proof.
  assert (forall n args o0 st, length args <= n -> parse_flags args o0 = Exit st ->
    st = 2%Z \/ st = 0%Z /\ exists ss ws w r, args = concat ws ++ w :: r /\ Forall2 spelled ss ws /\ help_word w) as G.
  { induction n as [|n IH]; intros args o0 st L H.
    - destruct args; [discriminate|cbn in L; lia].
    - destruct (parse_inv args o0) as [[E P]|[(s & ws & rest & S & N & ->)|[(w & r & -> & W & P)|[_ P]]]].
      + congruence.
      + rewrite (parse_step s) in H by assumption. rewrite app_length in L. destruct ws as [|w ws]; [congruence|]. cbn [length] in L.
        destruct (IH rest (apply o0 s) st ltac:(lia) H) as [-> |[-> (ss & ws' & w' & r & -> & F & E)]]; [left; reflexivity|right; split; [reflexivity|]].
        exists (s :: ss), ((w :: ws) :: ws'), w', r. cbn [concat]. rewrite <- app_assoc. repeat split; [constructor; assumption|assumption].
      + right. split; [congruence|]. exists [], [], w, r. repeat split; [constructor|assumption].
      + left. congruence. }
  intros args. split; [split|].
  - intros H. destruct (G _ _ _ _ (le_n _) H) as [X|[_ X]]; [discriminate|exact X].
  - intros (ss & ws & w & r & -> & F & (name & w0 & Nm & D & W)). rewrite (parse_steps ss) by assumption.
    destruct Nm as [-> | ->]; destruct D as [-> | ->]; destruct W as [-> |[v ->]]; reflexivity.
  - intros st H. destruct (G _ _ _ _ (le_n _) H) as [X|[X _]]; auto.
Qed.
Print Assumptions C76_exit.

(** C76: the mistakes: a name that is none of the five (nor a request for help), a text option at the very end,
    a value of -line-replace that is no truth value. *)
Theorem C76_mistakes : forall ss ws w r, Forall2 spelled ss ws ->
  (forall name w0, dashed name w0 -> name <> [] -> hd x00 name <> x2d -> no_byte x3d name ->
     ~ In name [str "i"; str "o"; str "r"; str "line"; str "line-replace"; str "h"; str "help"] ->
     w = w0 \/ (exists v, w = w0 ++ str "=" ++ v) -> parse_flags (concat ws ++ w :: r) default_opts = Exit 2) /\
  (forall name, In name [str "i"; str "o"; str "r"; str "line"] -> dashed name w -> parse_flags (concat ws ++ [w]) default_opts = Exit 2) /\
  (forall w0 v, dashed (str "line-replace") w0 -> w = w0 ++ str "=" ++ v -> (forall b, ~ means v b) ->
     parse_flags (concat ws ++ w :: r) default_opts = Exit 2).
Proof.
  intros ss ws w r F. split; [|split].
  - intros name w0 D Nn Hd Ne Ni W. rewrite (parse_steps ss) by assumption. cbn [parse_flags].
    assert (exists value, read_word w = Named name value) as [value ->].
    { destruct name as [|n t]; [congruence|]. cbn [hd] in Hd.
      assert (n <> x3d) as Nq by (intros ->; apply Ne; left; reflexivity).
      assert (cut x3d t = None) as C1.
      { destruct (cut x3d t) as [[a b]|] eqn:C; [|reflexivity]. exfalso. apply cut_split in C as ->. apply Ne. right. apply in_or_app. right. left. reflexivity. }
      assert (forall v, cut x3d (t ++ x3d :: v) = Some (t, v)) as C2.
      { intros v. clear - C1. induction t as [|x t IH]; [reflexivity|]. cbn [cut app] in *. destruct (byte_eqb x x3d); [discriminate|].
        destruct (cut x3d t) as [[a b]|]; [discriminate|]. rewrite IH by reflexivity. reflexivity. }
      destruct D as [-> | ->]; destruct W as [-> |[v ->]]; cbn [app str read_word byte_eqb negb].
      all: change (str "-") with [x2d]; change (str "--") with [x2d; x2d]; change (str "=") with [x3d]; cbn [app read_word].
      all: destruct (byte_eqb_spec n x2d); [contradiction|]; destruct (byte_eqb_spec n x3d); [contradiction|].
      all: change (byte_eqb x2d x2d) with true; cbn [negb andb orb is_nil app].
      all: rewrite ?C1, ?C2; eauto.
      all: destruct (byte_eqb_spec n x2d); [contradiction|]; destruct (byte_eqb_spec n x3d); [contradiction|]; cbn [orb]; rewrite ?C1, ?C2; eauto. }
    unfold formal.
    assert (forall x, In x [str "i"; str "o"; str "r"; str "line"; str "line-replace"; str "h"; str "help"] -> bytes_eqb name x = false) as K.
    { intros x I. destruct (bytes_eqb_spec name x) as [-> |]; [contradiction|reflexivity]. }
    rewrite !K by (cbn [In]; tauto).
    reflexivity.
  - intros name I D. rewrite (parse_steps ss) by assumption.
    destruct I as [<-|[<-|[<-|[<-|[]]]]]; destruct D as [-> | ->]; reflexivity.
  - intros w0 v D -> M. rewrite (parse_steps ss) by assumption.
    assert (parse_bool v = None) as P by (destruct (parse_bool v) as [b|] eqn:P; [exfalso; apply (M b), parse_bool_spec; assumption|reflexivity]).
    destruct D as [-> | ->]; cbn -[parse_bool]; rewrite P; reflexivity.
Qed.
Print Assumptions C76_mistakes.

(** C76: of an option that is given more than once the last one counts; the order of different options does not matter. *)
Theorem C76_last : forall ss o, let p := fold_left apply ss o in
  oInput p = last (flat_map (fun s => match s with Input v => [v] | _ => [] end) ss) (oInput o) /\
  oOutput p = last (flat_map (fun s => match s with Output v => [v] | _ => [] end) ss) (oOutput o) /\
  oRule p = last (flat_map (fun s => match s with RuleText v => [v] | _ => [] end) ss) (oRule o) /\
  oLine p = last (flat_map (fun s => match s with LineFile v => [v] | _ => [] end) ss) (oLine o) /\
  oReplace p = last (flat_map (fun s => match s with Replace v => [v] | _ => [] end) ss) (oReplace o).
Proof.
  assert (forall A (x : A) l d, last (x :: l) d = last l x) as L.
  { intros A x l. revert x. induction l as [|y l IH]; intros x d; [reflexivity|]. change (last (x :: y :: l) d) with (last (y :: l) d). rewrite IH. symmetry. apply IH. }
  induction ss as [|s ss IH]; intros o p; [repeat split|]. unfold p. cbn [fold_left flat_map].
  destruct (IH (apply o s)) as (A & B & C & D & E). rewrite A, B, C, D, E. destruct s; cbn [apply oInput oOutput oRule oLine oReplace app]; rewrite ?L; repeat split.
Qed.
Print Assumptions C76_last.

(** C76, finding: -line-replace takes no separate value; a word after it ends the options, and those that
    follow are ignored. *)
Theorem C76_separate_truth : forall ss ws w v rest, Forall2 spelled ss ws -> dashed (str "line-replace") w -> no_option v ->
  parse_flags (concat ws ++ w :: v :: rest) default_opts = Go (apply (fold_left apply ss unset) (Replace true)).
Proof.
  change unset with default_opts.
  intros ss ws w v rest F D N. rewrite (parse_steps ss) by assumption. rewrite (parse_step (Replace true) [w] (v :: rest)) by (constructor; assumption).
  cbn [parse_flags]. apply read_stop in N. rewrite N. reflexivity.
Qed.
Print Assumptions C76_separate_truth.

(** C76: a program that ends while reading its options touches no file; otherwise it runs with the settings
    and ends with status 0.  Without an output it writes nothing and reports an error. *)
Theorem C76_program : forall E ipList order grow can fs args,
  (forall status, parse_flags args default_opts = Exit status ->
     converterProgram E ipList order grow can fs args = Ok (fs, None, status)) /\
  (forall ss ws rest, args = concat ws ++ rest -> Forall2 spelled ss ws -> ends rest ->
     let o := fold_left apply ss unset in
     (forall fs' e, converterProgram E ipList order grow can fs args = Ok (fs', e, 0%Z) <->
        converterMain E ipList order grow can fs (oInput o) (oOutput o) (oRule o) (oLine o) (oReplace o) = Ok (fs', e)) /\
     (can [] = false -> (forall v, ~ In (Output v) ss) -> forall fs' e st,
        converterProgram E ipList order grow can fs args = Ok (fs', e, st) -> fs' = fs /\ e <> None /\ st = 0%Z)).
Proof.
  change unset with default_opts.
  intros E il order grow can fs args. split.
  - intros st H. unfold converterProgram. rewrite H. reflexivity.
  - intros ss ws rest -> F En o.
    assert (parse_flags (concat ws ++ rest) default_opts = Go o) as P by (apply C76_options; exists ss, ws, rest; auto).
    unfold converterProgram. rewrite P. split.
    + intros fs' e. destruct (converterMain _ _ _ _ _ _ _ _ _ _ _) as [[fs1 e1]| | |]; cbn [bind]; split; intros H; try discriminate; congruence.
    + intros Cn No fs' e st. assert (oOutput o = []) as Eo.
      { unfold o. destruct (C76_last ss default_opts) as (_ & -> & _). rewrite flat_map_none; [reflexivity|]. intros [| | | |] I; try reflexivity. exfalso. exact (No _ I). }
      rewrite Eo. unfold converterMain. destruct (line_db _ _ _ _ _) as [q|e1| |]; cbn [bind]; intros H; try discriminate.
      * destruct (DumpFile _ _ _ _ _) as [d|e1| |]; cbn [bind] in H; try discriminate.
        -- change (split x2c []) with [([] : bytes)] in H. cbn [write_outputs] in H. unfold PackFile in H. rewrite Cn in H. cbn in H.
           injection H as <- <- <-. repeat split; discriminate.
        -- injection H as <- <- <-. repeat split; discriminate.
      * injection H as <- <- <-. repeat split; discriminate.
Qed.
Print Assumptions C76_program.

(** Cases. *)
Example C76_case : parse_flags [str "-i"; str "a.ipdb"; str "--o=b.ipdb,c.scan"; str "-line-replace"; str "-line"; str "l.ipdb"] default_opts =
  Go (mkOpts (str "a.ipdb") (str "b.ipdb,c.scan") (str "default") (str "l.ipdb") true) /\
  parse_flags [str "-i"; str "-o"; str "x"; str "-r"; str "y"] default_opts = Go (mkOpts (str "-o") [] (str "default") [] false) /\
  parse_flags [str "-line-replace"; str "false"; str "-o"; str "x"] default_opts = Go (mkOpts [] [] (str "default") [] true) /\
  parse_flags [str "-line-replace=False"; str "-r="] default_opts = Go (mkOpts [] [] [] [] false) /\
  parse_flags [str "-o"; str "x"; str "-help=1"; str "-q"] default_opts = Exit 0 /\ parse_flags [str "-q"; str "-h"] default_opts = Exit 2 /\
  parse_flags [str "---i"] default_opts = Exit 2 /\ parse_flags [str "-i"] default_opts = Exit 2.
Proof. repeat split. Qed.
Example C76_spelled : Forall2 spelled [Input (str "a.ipdb"); Output (str "b=c"); Replace false]
  [[str "-i"; str "a.ipdb"]; [str "--o=b=c"]; [str "-line-replace=F"]] /\ ends [str "--"; str "-q"] /\ help_word (str "--help").
Proof.
  split.
  - constructor; [apply (two_words (str "i")); [unfold text_setting; tauto|left; reflexivity]|].
    constructor; [apply (one_word (str "o") (str "b=c") _ (str "--o")); [unfold text_setting; tauto|right; reflexivity]|].
    constructor; [apply (truth (str "F") false (str "-line-replace")); [left; reflexivity|cbn; tauto]|]. constructor.
  - split; [right; reflexivity|]. exists (str "help"), (str "--help"). split; [auto|]. split; [right; reflexivity|auto].
Qed.
