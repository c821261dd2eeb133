(* PROOFS of the statements of PropServer.v from SrvRun.v, NamesFacts.v and ConfFacts.v. *)
From Coq Require Import Strings.String Strings.Byte List NArith ZArith Bool Lia ZifyBool ZifyN ZifyNat Sorting.Permutation.
From Verif Require Import Bytes BytesFacts Layout Store Text Commands SpecKV Machine
  TableFacts FrameFacts Sha1 Dispatch Namespace System Resp Server SpecAuth AuthFacts SpecServer IsolFacts SrvInv SrvRun NamesFacts ConfFacts.
Import ListNotations.
Open Scope N_scope.

Lemma names_theorem g es w0 outs w : first_boot g = Some w0 -> all_honest g es w0 -> run_sevents g es w0 = Some (outs, w) ->
  exists P S, names_run g es w0 outs (fun _ => None) (fun n => bseqb n (str "default")) P S /\
    S (str "default") = true /\
    (forall n, S n = true <-> exists i r, slot i w = Some r /\ n_name (r_cfg r) = n) /\
    (forall i j r r', slot i w = Some r -> slot j w = Some r' -> n_name (r_cfg r) = n_name (r_cfg r') -> i = j).
Proof.
  intros B Ho R. destruct (names_all g es w0 outs w B Ho R) as (P & S & A & V & _). exists P, S. split; [exact A|].
  assert (M : forall n, S n = true <-> exists i r, slot i w = Some r /\ n_name (r_cfg r) = n) by (intro n; rewrite (nm_mem _ _ V); apply names_in).
  split; [|split; [exact M|apply (nm_uniq _ _ V)]]. apply M. pose proof (nm_def _ _ V) as D. destruct (slot 0 w) as [r|] eqn:S0; [|discriminate].
  exists 0, r. split; [exact S0|]. injection D as D. exact D.
Qed.

Lemma directory_theorem g es outs w0 w : server_ok g -> first_boot g = Some w0 -> all_covered g es w0 -> run_sevents g es w0 = Some (outs, w) ->
  exists D, dir_run g es w0 outs (only_default g) D /\
    D (str "default") <> None /\
    (forall n, D n <> None <-> exists i r, slot i w = Some r /\ n_name (r_cfg r) = n) /\
    (forall i r, slot i w = Some r -> exists x, D (n_name (r_cfg r)) = Some x /\ d_conf x = r_cfg r).
Proof.
  intros G B A R. destruct (server_run g es outs w0 w G B A R) as (D & Dr & V). exists D. split; [exact Dr|].
  assert (M : forall n, D n <> None <-> exists i r, slot i w = Some r /\ n_name (r_cfg r) = n).
  { intro n. split.
    - intro H. destruct (D n) as [x|] eqn:E; [|congruence]. exact (sv_have _ _ _ V n x E).
    - intros (i & r & S & <-). destruct (sv_live _ _ _ V i r S) as (x & Dx & _). congruence. }
  split; [|split; [exact M|]].
  - apply M. destruct (sv_def _ _ _ V) as (r & S & N). exists 0, r. auto.
  - intros i r S. destruct (sv_live _ _ _ V i r S) as (x & Dx & Cx & _). exists x. auto.
Qed.

(* the namespace whose mode was changed was never written to *)
Lemma mode_theorem g es outs w0 w fd v argv cl i r h rep rest st w' :
  server_ok g -> first_boot g = Some w0 -> all_covered g es w0 -> run_sevents g es w0 = Some (outs, w) ->
  client_at fd w = Some cl -> c_ns cl = Some i -> slot i w = Some r ->
  lookup_handler (arg 0 (effective cl argv)) = Some (h, CNsset) -> text (arg 2 (effective cl argv)) = str "mode" ->
  run_sevent g (SRequest fd v argv) w = SDone ((fd, rep) :: rest) st w' -> rep = enc_reply ROk ->
  exists D D' x, dir_run g es w0 outs (only_default g) D /\ SrvInv g w' D' /\ D (text (arg 1 (effective cl argv))) = Some x /\ d_used x = false /\
    exists sequential : bool, D' = dset (text (arg 1 (effective cl argv))) (Some (mkDent false (empty_content sequential) (d_conf x))) D.
Proof.
  intros G B A R C Ci S L Em Rq ->. destruct (server_run g es outs w0 w G B A R) as (D & Dr & V). cbn [run_sevent] in Rq.
  assert (Cv : covered g (SRequest fd v argv) w).
  { cbn [covered]. intros cl0 i0 r0 h0 c0 C0 Ci0 S0 L0. assert (cl0 = cl) by congruence. subst cl0. rewrite L in L0. injection L0 as <- <-. cbv zeta.
    split; [intros q Q; discriminate|]. split; [discriminate|]. split; [discriminate|]. intros _ E. rewrite Em in E. discriminate. }
  destruct (request_step g v fd argv w D _ st w' G V Cv Rq) as (D' & E & V'). exists D, D'. cbn [dir_event] in E.
  destruct E as (cl0 & C0 & E). assert (cl0 = cl) by congruence. subst cl0. destruct E as [(E & _)|(rp & rs & E & K)]; [discriminate|].
  injection E as <- <-. rewrite Ci in K. destruct K as (r0 & S0 & K). rewrite L in K. cbv beta iota zeta delta [request_spec] in K.
  assert (Ne : ~ is_error (enc_reply ROk)) by (intros (m & Q); discriminate).
  destruct (_ && _); [|exfalso; apply Ne, K]. destruct (D _) as [x|] eqn:Dx; [|exfalso; apply Ne, K]. rewrite Em in K.
  change (bseqb (str "mode") (str "mode")) with true in K. cbv iota in K. destruct K as [K|(_ & _ & U & sq & _ & K)]; [exfalso; apply Ne, K|].
  exists x. split; [exact Dr|]. split; [exact V'|]. split; [reflexivity|]. split; [exact U|]. exists sq. exact K.
Qed.

Lemma sessions_theorem g es w0 outs w : first_boot g = Some w0 -> all_honest g es w0 -> run_sevents g es w0 = Some (outs, w) ->
  exists P S, names_run g es w0 outs (fun _ => None) (fun n => bseqb n (str "default")) P S /\
  forall fd, match P fd with
    | None => client_at fd w = None
    | Some None => exists cl, client_at fd w = Some cl /\
        forall v argv, exists rep st, dispatch g v fd cl argv w = Done rep st w /\ is_error rep
    | Some (Some n) => exists cl i r, client_at fd w = Some cl /\ c_ns cl = Some i /\ slot i w = Some r /\ n_name (r_cfg r) = n
    end.
Proof.
  intros B Ho R. destruct (names_all g es w0 outs w B Ho R) as (P & S & A & V & At). exists P, S. split; [exact A|]. intro fd. rewrite <- At. unfold at_of.
  destruct (client_at fd w) as [cl|] eqn:C; [|reflexivity]. cbn [option_map]. destruct (c_ns cl) as [i|] eqn:N.
  - destruct (slot i w) as [r|] eqn:Si; [|destruct (nm_cl _ _ V fd cl i C N Si)]. cbn [nm option_map]. exists cl, i, r. auto.
  - exists cl. split; [reflexivity|]. intros v argv. apply detached_refused. exact N.
Qed.

(* the settings before and after a restart *)
Lemma settings_restart g es w0 outs w ord w' : first_boot g = Some w0 -> all_set_ok g es w0 -> run_sevents g es w0 = Some (outs, w) ->
  Permutation ord (stored_of w) -> boot g ord = Some w' ->
  forall i r, slot i w = Some r -> exists j r', slot j w' = Some r' /\ r_cfg r' = unlocked (r_cfg r).
Proof.
  intros B Ho R Pm Bt i r S. destruct (first_names g w0 B) as (Vn & _). destruct (events_conf g es w0 _ _ outs w Vn (first_conf g w0 B) Ho R) as (C & _ & V).
  pose proof (restart_conf g ord w C w' V Pm Bt) as V'. destruct (cf_live _ _ V i r S) as (Cx & _).
  destruct (cf_have _ _ V' (n_name (r_cfg r)) (unlocked (r_cfg r))) as (j & r' & S' & N'); [rewrite Cx; reflexivity|].
  exists j, r'. split; [exact S'|]. destruct (cf_live _ _ V' j r' S') as (Cx' & _). rewrite N', Cx in Cx'. cbn [option_map] in Cx'. congruence.
Qed.

(* the server starts again *)
Lemma restart_total g es w0 outs w ord : server_ok g -> first_boot g = Some w0 -> all_covered g es w0 -> run_sevents g es w0 = Some (outs, w) ->
  covered g (SRestart ord) w -> exists w', boot g ord = Some w'.
Proof.
  intros G B A R C. destruct (server_run g es outs w0 w G B A R) as (D & _ & V). destruct (restart_step g ord w D V C) as (w' & E & _). exists w'. exact E.
Qed.

(* ---- tests, for the examples ---- *)

Definition no_restart (e : sevent) : bool := match e with SRestart _ => false | _ => true end.

Lemma calm_list_honest g es : forallb no_restart es = true -> forall w, all_honest g es w.
Proof.
  induction es as [|e es IH]; intros H w; cbn [forallb all_honest] in *; [exact I|]. apply andb_true_iff in H. destruct H as (A & B). split.
  - destruct e; try exact I. discriminate.
  - destruct (run_sevent g e w); [apply IH; exact B|exact I].
Qed.

Lemma restart_covered g a b w0 w : all_coveredb g a w0 = true -> option_map snd (run_sevents g a w0) = Some w -> restart_b w = true ->
  match boot g (stored_of w) with Some w1 => all_coveredb g b w1 | None => true end = true ->
  all_covered g (a ++ SRestart (stored_of w) :: b) w0.
Proof.
  intros A R T B. destruct (run_sevents g a w0) as [[o w1]|] eqn:E; [|discriminate]. cbn [option_map snd] in R. injection R as ->.
  eapply all_covered_app; [apply all_coveredb_ok; exact A|exact E|]. cbn [all_covered]. split; [apply restart_b_ok; exact T|].
  cbn [run_sevent]. destruct (boot g (stored_of w)); [apply all_coveredb_ok; exact B|exact I].
Qed.
