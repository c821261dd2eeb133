(* PROOFS.  A namespace whose files are whole is served as before, whatever is found in
   the files of the others. *)
From Coq Require Import Strings.String Strings.Byte List NArith ZArith Bool Lia ZifyBool ZifyN ZifyNat.
From Verif Require Import Bytes BytesFacts Layout LayoutFacts Text Store Commands SpecKV SpecSeq Machine Reach CrashModel Ghost DataFacts TableFacts UserInv UserLoad SeqInv SeqLoad FrameFacts SeqReach SeqFacts Dispatch Namespace
  System Server ServerCrash SpecAuth AuthFacts SpecServer IsolFacts SrvInv SrvRun NamesFacts SpecDamage.
Import ListNotations.
Open Scope N_scope.
Local Notation length := List.length.

(* ---- the start ---- *)

Lemma load_name smode i name desc d t t' r : namespace_load smode i name desc d t = Some (t', r) -> n_name (r_cfg r) = name.
Proof.
  unfold namespace_load. destruct (descriptor_load name desc) as [[cf ds]|] eqn:D; [|discriminate].
  destruct (store_open _ _ _ _); [|discriminate]. intro H. injection H as _ <-. cbn [r_cfg].
  unfold descriptor_load in D. destruct (negb _); [injection D as <- _; reflexivity|]. destruct (negb _); [discriminate|].
  injection D as <- _. reflexivity.
Qed.

Lemma load_names smode l : forall i t t' slots, load_all smode i l t = Some (t', slots) ->
  forall j r, oget j slots = Some r -> In (n_name (r_cfg r)) (names_found l).
Proof.
  induction l as [|[[name desc] d] l IH]; intros i t t' slots H j r G; cbn [load_all] in H.
  - injection H as <- <-. discriminate.
  - unfold names_found. cbn [map fst]. destruct (descriptor_load name desc); [|right; exact (IH _ _ _ _ H j r G)].
    destruct (namespace_load _ _ _ _ _ _) as [[t1 r1]|] eqn:L; [|discriminate].
    destruct (load_all _ _ _ _) as [[t2 rs]|] eqn:A; [|discriminate]. injection H as <- <-.
    rewrite oget_cons in G. destruct (N.eqb_spec j 0) as [->|J].
    + injection G as <-. left. symmetry. eapply load_name. exact L.
    + right. exact (IH _ _ _ _ A (N.pred j) r G).
Qed.

Lemma load_uniq smode l : NoDup (names_found l) -> forall i t t' slots, load_all smode i l t = Some (t', slots) ->
  forall j k r r', oget j slots = Some r -> oget k slots = Some r' -> n_name (r_cfg r) = n_name (r_cfg r') -> j = k.
Proof.
  induction l as [|[[name desc] d] l IH]; intros Nd i t t' slots H j k r r' G G' E; cbn [load_all] in H.
  - injection H as <- <-. discriminate.
  - unfold names_found in Nd. cbn [map fst] in Nd. inversion Nd as [|? ? N1 N2]; subst.
    destruct (descriptor_load name desc); [|exact (IH N2 _ _ _ _ H j k r r' G G' E)].
    destruct (namespace_load _ _ _ _ _ _) as [[t1 r1]|] eqn:L; [|discriminate].
    destruct (load_all _ _ _ _) as [[t2 rs]|] eqn:A; [|discriminate]. injection H as <- <-.
    apply load_name in L. rewrite oget_cons in G, G'.
    destruct (N.eqb_spec j 0) as [->|J]; destruct (N.eqb_spec k 0) as [->|K]; [reflexivity| | |].
    + exfalso. injection G as <-. apply N1. rewrite <- L, E. exact (load_names _ _ _ _ _ _ A _ _ G').
    + exfalso. injection G' as <-. apply N1. rewrite <- L, <- E. exact (load_names _ _ _ _ _ _ A _ _ G).
    + pose proof (IH N2 _ _ _ _ A (N.pred j) (N.pred k) r r' G G' E). lia.
Qed.

(* the rows of a namespace already loaded, and the absence of rows of one to come *)
Lemma load_all_frame smode l : forall i t t' slots k X, load_all smode i l t = Some (t', slots) -> k < i -> TInv t k X -> TInv t' k X.
Proof.
  induction l as [|[[name desc] d] l IH]; intros i t t' slots k X H K T; cbn [load_all] in H.
  - injection H as <- <-. exact T.
  - destruct (descriptor_load name desc); [|exact (IH _ _ _ _ k X H K T)].
    destruct (namespace_load _ _ _ _ _ _) as [[t1 r1]|] eqn:L; [|discriminate].
    destruct (load_all _ _ _ _) as [[t2 rs]|] eqn:A; [|discriminate]. injection H as <- <-.
    apply (IH _ _ _ _ k X A); [lia|]. apply ns_load_frame in L. eapply tframe_inv; [|apply L|exact T]. lia.
Qed.

Lemma load_all_one g s x l : boots g s x -> In s l -> forall i t t' slots, (forall k, i <= k -> TInv t k []) ->
  load_all (g_mode (v_set g)) i l t = Some (t', slots) ->
  exists j r, oget j slots = Some r /\ r_cfg r = unlocked (d_conf x) /\ holds g (i + j) (mkEst t' (r_ix r) (r_dt r) (r_dk r)) (restarted x).
Proof.
  intros B. induction l as [|s0 l IH]; intros I i t t' slots T H; [destruct I|].
  destruct s0 as [[name desc] d]. cbn [load_all] in H.
  destruct I as [<-|I].
  - destruct B as (_ & _ & B). cbn [fst snd] in B. destruct (B i t (T i (N.le_refl i))) as (t1 & r & L & F & C & _ & U).
    destruct (descriptor_load name desc) eqn:Dl; [|unfold namespace_load in L; rewrite Dl in L; discriminate].
    rewrite L in H. destruct (load_all _ _ _ _) as [[t2 rs]|] eqn:A; [|discriminate]. injection H as <- <-.
    exists 0, r. split; [reflexivity|]. split; [exact C|]. rewrite N.add_0_r.
    apply (holds_tb g i (mkEst t1 (r_ix r) (r_dt r) (r_dk r)) (restarted x) t2); [|exact U].
    intros X TX. apply (load_all_frame _ _ _ _ _ _ i X A); [lia|exact TX].
  - destruct (descriptor_load name desc); [|exact (IH I _ _ _ _ T H)].
    destruct (namespace_load _ _ _ _ _ _) as [[t1 r1]|] eqn:L; [|discriminate].
    destruct (load_all _ _ _ _) as [[t2 rs]|] eqn:A; [|discriminate]. injection H as <- <-.
    destruct (IH I (i + 1) t1 t2 rs) as (j & r & G & C & U); [|exact A|].
    { intros k K. apply ns_load_frame in L. eapply tframe_inv; [|apply L|apply T; lia]. lia. }
    exists (j + 1), r. rewrite oget_cons. replace (_ =? 0) with false by lia. replace (N.pred (j + 1)) with j by lia.
    split; [exact G|]. split; [exact C|]. replace (i + (j + 1)) with (i + 1 + j) by lia. exact U.
Qed.

(* ---- afterwards ---- *)

Definition serves (g : server) (j : N) (x : dent) (w : world) : Prop :=
  numbered w /\ exists r, slot j w = Some r /\ d_conf x = r_cfg r /\ holds g j (est_of w r) x.

Lemma serves_same g j x w w' : w_tb w' = w_tb w -> w_slots w' = w_slots w -> serves g j x w -> serves g j x w'.
Proof.
  intros E1 E2 (W & r & S & C & U). split; [apply (same_numbered w); assumption|]. exists r.
  unfold slot in *. rewrite E2. split; [exact S|]. split; [exact C|]. unfold est_of in *. rewrite E1. exact U.
Qed.

Lemma serves_only g j k x w w' : j <> k -> only k w w' -> serves g j x w -> serves g j x w'.
Proof.
  intros J O (W & r & S & C & U). split; [eapply only_numbered; eassumption|]. destruct O as (T & O & _). exists r.
  rewrite (O j J). split; [exact S|]. split; [exact C|]. exact (holds_frame g k j (est_of w r) x (w_tb w') J T U).
Qed.

(* the data request of a client of j *)
Lemma serves_data g v fd cl j r c argv w x h rep st w' : server_ok g -> serves g j x w -> slot j w = Some r ->
  lookup_handler (arg 0 argv) = Some (h, c) -> is_data c = true ->
  (forall q, req_of c argv = Some q -> req_wf q /\ room_left r /\ (in_sequential r -> req_calm (v_set g) (perm_of cl) (v_sec v) q (r_cfg r) (est_of w r))) ->
  handle g v fd cl j r c argv w = Done rep st w' ->
  match req_of c argv with
  | None => is_error rep /\ serves g j x w'
  | Some q =>
      let '(rp, ct) := content_step (perm_of cl) (v_sec v) (d_conf x) q (d_content x) in
      rep = enc_reply rp /\ serves g j (mkDent (d_used x || stores q rp) ct (d_conf x)) w'
  end.
Proof.
  intros G Sv S L Da Ok H. pose proof (handle_data g v fd cl j r c argv w h Da L S) as Hd. destruct Sv as (W & r0 & S0 & C & U).
  rewrite S in S0. injection S0 as <-. destruct (req_of c argv) as [q|].
  - cbv zeta in Hd. rewrite H in Hd. destruct (Ok q eq_refl) as (Wf & Rm & Ca).
    destruct (holds_req g j (est_of w r) x (perm_of cl) (v_sec v) q (r_cfg r) G U Wf Rm Ca) as (R1 & R2).
    rewrite C. destruct (content_step _ _ _ _ _) as [rp ct]. cbn [fst snd] in *. injection Hd as E1 _ E3. subst rep w'. split; [exact R1|].
    set (s' := snd (run_req (v_set g) (perm_of cl) (v_sec v) q (r_cfg r) (est_of w r))) in *.
    assert (Fm : frame j (est_of w r) s').
    { pose proof (W j r S) as Nr. unfold s'. destruct q; cbn [run_req snd]; try apply frame_refl.
      - apply command_set_frame. exact Nr.
      - apply command_del_frame. exact Nr.
      - apply command_nsjump_frame. }
    split; [eapply only_numbered; [exact W|]; apply put_est_only; assumption|].
    exists (mkNs (r_cfg r) (r_desc r) (ix s') (dt s') (dk s')). split.
    + rewrite slot_oget in S |- *. cbn [w_slots put_est]. rewrite oget_nset, N.eqb_refl. pose proof (oget_lt _ _ _ S).
      replace (j <? nlen (w_slots w)) with true by lia. reflexivity.
    + cbn [d_conf r_cfg]. split; [reflexivity|]. cbn [est_of put_est w_tb r_ix r_dt r_dk]. rewrite <- C. destruct s'. exact R2.
  - destruct Hd as (rp & Hd & E). rewrite H in Hd. injection Hd as -> _ ->. split; [exact E|]. split; [exact W|]. exists r. auto.
Qed.

(* another command of a client of j *)
Lemma serves_touch g j x w w' c argv r : serves g j x w -> slot j w = Some r -> touches (j + 1) c argv w w' ->
  (target_cmd c = true -> text (arg 1 argv) <> n_name (r_cfg r)) -> serves g j x w'.
Proof.
  intros Sv S (k & O & K) T. apply (serves_only g j k x w w'); [|exact O|exact Sv]. intros <-.
  destruct K as [K|[(Tc & rk & Sk & E)|(_ & K)]]; [lia| |congruence].
  rewrite S in Sk. injection Sk as <-. apply (T Tc). rewrite E. symmetry. apply text_cstr.
Qed.

Lemma serves_other g v fd cl j r c argv w x rep st w' : serves g j x w -> slot j w = Some r ->
  is_data c = false -> c <> CFlush -> (target_cmd c = true -> text (arg 1 argv) <> n_name (r_cfg r)) ->
  handle g v fd cl j r c argv w = Done rep st w' -> serves g j x w'.
Proof.
  intros Sv S Da Nf T H. pose proof (proj1 Sv) as W. destruct c; try discriminate Da; try (exfalso; apply Nf; reflexivity); unfold handle in H;
    try (done_inv H; exact Sv); try (told_step H; exact Sv).
  - unfold command_wait in H. destr_res H; done_inv H; try exact Sv; apply (serves_same g j x w); auto.
  - destruct (admin_authorized _); done_inv H; try exact Sv; apply (serves_same g j x w); auto.
  - destruct (admin_authorized _); done_inv H; try exact Sv; apply (serves_same g j x w); auto.
  - unfold command_auth in H. destr_res H; done_inv H; try exact Sv; apply (serves_same g j x w); auto.
  - destruct (admin_authorized _); done_inv H; exact Sv.
  - destruct (command_index _ _ _) as [[rp s']|] eqn:E; [|discriminate]. done_inv H.
    destruct Sv as (_ & r0 & S0 & C & U). rewrite S in S0. injection S0 as <-.
    split; [eapply only_numbered; [exact W|]; apply put_est_only; [eapply command_index_frame; exact E|exact S|exact W]|].
    exists (mkNs (r_cfg r) (r_desc r) (ix s') (dt s') (dk s')). split.
    + rewrite slot_oget in S |- *. cbn [w_slots put_est]. rewrite oget_nset, N.eqb_refl. pose proof (oget_lt _ _ _ S).
      replace (j <? nlen (w_slots w)) with true by lia. reflexivity.
    + cbn [r_cfg]. split; [exact C|]. cbn [est_of put_est w_tb r_ix r_dt r_dk]. pose proof (index_step g j _ _ _ _ _ _ U E) as U'. destruct s'. exact U'.
  - destruct (v_release g); done_inv H; exact Sv.
  - eapply serves_touch; [exact Sv|exact S|eapply nsnew_touches; [exact W|exact H]|exact T].
  - eapply serves_touch; [exact Sv|exact S|eapply nsdel_touches; [exact W|exact H]|exact T].
  - eapply serves_touch; [exact Sv|exact S|eapply nsset_touches; [exact W|exact H]|exact T].
  - unfold command_select in H. destr_res H; done_inv H; try exact Sv; apply (serves_same g j x w); auto.
  - eapply serves_touch; [exact Sv|exact S|eapply reload_touches; [exact W|exact H]|exact T].
Qed.

Lemma serves_request g v fd argv j x w out st w' : server_ok g -> serves g j x w -> leaves g j (SRequest fd v argv) w ->
  request g v fd argv w = SDone out st w' -> exists x', one_event j (SRequest fd v argv) w out x x' /\ serves g j x' w'.
Proof.
  intros G Sv Lv H. apply request_inv in H. destruct H as (cl & C & H). cbn [one_event]. destruct Sv as (W & rj & Sj & Cj & U).
  assert (Sv : serves g j x w) by (split; [exact W|exists rj; auto]).
  destruct H as [(-> & ->)|(rep & w1 & o1 & Di & P & ->)].
  { exists x. split; [|exact Sv]. exists cl. split; [exact C|]. destruct (c_ns cl) as [i|]; [|reflexivity].
    destruct (lookup_handler _) as [[h c]|]; [|reflexivity]. destruct ((i =? j) && is_data c); [|reflexivity]. left. auto. }
  apply posthandler_world in P. destruct P as (P1 & P2 & P3 & _).
  apply dispatch_inv in Di. destruct Di as [(N & -> & E)|(i & r & Ci & S & Di)].
  { exists x. split; [|apply (serves_same g j x w); auto]. exists cl. split; [exact C|]. rewrite N. reflexivity. }
  destruct Di as [(L & -> & E)|(h & c & L & Di)].
  { exists x. split; [|apply (serves_same g j x w); auto]. exists cl. split; [exact C|]. rewrite Ci, L. reflexivity. }
  destruct (Lv cl h c rj C L Sj) as (Lt & Lj).
  set (cl' := c_set_exec (Some h) cl) in *. set (w0 := put_client fd cl' w) in *.
  assert (V0 : serves g j x w0) by (apply (serves_same g j x w); auto).
  destruct (N.eqb_spec i j) as [->|J].
  - assert (r = rj) by congruence. subst r. destruct (Lj Ci) as (Nf & Ok). destruct (is_data c) eqn:Da.
    + pose proof (serves_data g v fd cl' j rj c (effective cl argv) w0 x h rep st w1 G V0 S L Da Ok Di) as R.
      destruct (req_of c (effective cl argv)) as [q|] eqn:Q.
      * change (perm_of cl') with (perm_of cl) in R. destruct (content_step (perm_of cl) (v_sec v) (d_conf x) q (d_content x)) as [rp ct] eqn:Z. destruct R as (R1 & R2).
        exists (mkDent (d_used x || stores q rp) ct (d_conf x)). split; [|apply (serves_same g j _ w1); auto].
        exists cl. split; [exact C|]. rewrite Ci, L, N.eqb_refl. cbn [andb]. rewrite Da. right. exists rep, o1. split; [reflexivity|]. rewrite Q, Z. auto.
      * destruct R as (R1 & R2). exists x. split; [|apply (serves_same g j _ w1); auto].
        exists cl. split; [exact C|]. rewrite Ci, L, N.eqb_refl. cbn [andb]. rewrite Da. right. exists rep, o1. split; [reflexivity|]. rewrite Q. auto.
    + exists x. split; [|apply (serves_same g j x w1); auto; eapply serves_other; eassumption].
      exists cl. split; [exact C|]. rewrite Ci, L, Da, andb_false_r. reflexivity.
  - exists x. split.
    + exists cl. split; [exact C|]. rewrite Ci, L. replace (i =? j) with false by lia. reflexivity.
    + apply (serves_same g j x w1); auto. apply handle_only in Di; [|exact (proj1 V0)|exact S].
      destruct Di as (k & O & K). apply (serves_only g j k x w0); [|exact O|exact V0]. intros <-.
      destruct K as [K|[(Tc & rk & Sk & E)|(_ & K)]]; [congruence| |].
      * change (slot j w = Some rk) in Sk. rewrite Sj in Sk. injection Sk as <-. apply (Lt Tc). rewrite E. symmetry. apply text_cstr.
      * change (slot j w = None) in K. congruence.
Qed.

Lemma rotate_serves g j x old : ~ In j old -> forall ks w, serves g j x w -> serves g j x (files_rotate old ks w).
Proof.
  intros J. induction ks as [|k ks IH]; intros w Sv; cbn [files_rotate]; [exact Sv|]. apply IH.
  destruct (slot k w) as [r|] eqn:S; [|exact Sv]. destruct (x_updated _ && _) eqn:U; [|exact Sv].
  apply (serves_only g j k x w); [|apply put_est_only; [apply jump_frame|exact S|exact (proj1 Sv)]|exact Sv].
  intros ->. apply J. apply andb_true_iff in U. destruct U as (_ & U). apply existsb_exists in U. destruct U as (y & Y & E).
  replace k with y by lia. exact Y.
Qed.

Lemma serves_step g e j x w out st w' : server_ok g -> serves g j x w -> leaves g j e w -> run_sevent g e w = SDone out st w' ->
  exists x', one_event j e w out x x' /\ serves g j x' w'.
Proof.
  intros G Sv Lv H. destruct e as [fd|fd|fd v argv|now old|ord]; cbn [run_sevent] in H; [| | | |destruct Lv].
  - unfold connect in H. destruct (client_at fd w); [discriminate|]. injection H as <- <- <-. exists x. split; [reflexivity|]. apply (serves_same g j x w); auto.
  - unfold close in H. injection H as <- <- <-. exists x. split; [reflexivity|]. apply (serves_same g j x w); auto.
  - eapply serves_request; eassumption.
  - unfold idle in H. destruct (watch_timeout _ _ _) as [o l]. injection H as <- <- <-. exists x. split; [reflexivity|].
    assert (V0 : serves g j x (mkWorld (w_tb w) (w_slots w) (w_eff w) l)) by (apply (serves_same g j x w); auto).
    destruct (v_rotate g); [|exact V0]. apply rotate_serves; assumption.
Qed.

Lemma serves_run g j : server_ok g -> forall es x w outs w', serves g j x w -> all_leave g j es w -> run_sevents g es w = Some (outs, w') ->
  exists x', one_run g j es w outs x x' /\ serves g j x' w'.
Proof.
  intro G. induction es as [|e es IH]; intros x w outs w' Sv A H; cbn [run_sevents all_leave] in *.
  - injection H as <- <-. exists x. split; [reflexivity|exact Sv].
  - destruct A as (A1 & A2). destruct (run_sevent g e w) as [out st w1|] eqn:E; [|discriminate].
    destruct (run_sevents g es w1) as [[o w2]|] eqn:R; [|discriminate]. injection H as <- <-.
    destruct (serves_step g e j x w out st w1 G Sv A1 E) as (x1 & O & S1).
    destruct (IH x1 w1 o w2 S1 A2 R) as (x' & O' & S'). exists x'. split; [|exact S'].
    cbn [one_run]. exists st, w1, x1. auto.
Qed.

(* ---- from the first start ---- *)

Lemma damage_theorem g es0 outs0 w0 w i r ord w1 :
  server_ok g -> first_boot g = Some w0 -> all_covered g es0 w0 -> run_sevents g es0 w0 = Some (outs0, w) ->
  slot i w = Some r -> (in_sequential r -> settled (est_of w r)) ->
  In (n_name (r_cfg r), r_desc r, r_dk r) ord -> NoDup (names_found ord) -> boot g ord = Some w1 ->
  exists D x j r1, dir_run g es0 w0 outs0 (only_default g) D /\ D (n_name (r_cfg r)) = Some x /\
    slot j w1 = Some r1 /\ r_cfg r1 = unlocked (d_conf x) /\
    (forall k r', slot k w1 = Some r' -> n_name (r_cfg r') = n_name (r_cfg r) -> k = j) /\
    forall es outs w2, all_leave g j es w1 -> run_sevents g es w1 = Some (outs, w2) ->
      exists x', one_run g j es w1 outs (started x) x' /\ exists r2, slot j w2 = Some r2 /\ r_cfg r2 = d_conf x'.
Proof.
  intros G B A R S Se I Nd Bo. destruct (server_run g es0 outs0 w0 w G B A R) as (D & Dr & V).
  destruct (sv_live _ _ _ V i r S) as (x & Dx & Cx & U & Co & De). exists D, x.
  pose proof (holds_disk g i (est_of w r) x U Se) as Dh. cbn [est_of dk] in Dh.
  assert (Bs : boots g (n_name (r_cfg r), r_desc r, r_dk r) x) by (apply disk_boots; rewrite ?Cx; auto).
  pose proof (boot_numbered _ _ _ Bo) as W.
  apply boot_inv in Bo. destruct Bo as (name & desc & d & rest & y & t & slots & -> & Dl & L & ->).
  destruct (load_all_one g _ x _ Bs I 0 empty_table t slots) as (j & r1 & Gj & C1 & U1); [|exact L|].
  { intros k _. apply tinv_empty. }
  rewrite N.add_0_l in U1. exists j, r1. split; [exact Dr|]. split; [exact Dx|]. split; [exact Gj|]. split; [exact C1|]. split.
  - intros k r' Sk E. rewrite slot_oget in Sk. cbn [w_slots] in Sk.
    apply (load_uniq _ _ Nd _ _ _ _ L k j r' r1 Sk Gj). rewrite E, C1. cbn [unlocked n_name]. rewrite Cx. reflexivity.
  - intros es outs w2 Al Rn. destruct (serves_run g j G es (started x) (mkWorld t slots (nlen slots) []) outs w2) as (x' & O & (_ & r2 & S2 & C2 & _)); [|exact Al|exact Rn|].
    { split; [exact W|]. exists r1. split; [exact Gj|]. split; [symmetry; exact C1|]. exact U1. }
    exists x'. split; [exact O|]. exists r2. auto.
Qed.

(* a test, for the examples *)
Definition leavesb (g : server) (j : N) (e : sevent) (w : world) : bool :=
  match e with
  | SRequest fd v argv =>
      match client_at fd w with
      | None => true
      | Some cl =>
          match lookup_handler (arg 0 (effective cl argv)), slot j w with
          | Some (_, c), Some r =>
              (negb (target_cmd c) || negb (bseqb (text (arg 1 (effective cl argv))) (n_name (r_cfg r)))) &&
              (negb (match c_ns cl with Some k => k =? j | None => false end) ||
               (match c with CFlush => false | _ => true end) &&
               match req_of c (effective cl argv) with
               | Some q => req_wf_b q && (nlen (dk_i (r_dk r)) <? 2 ^ 32) && calm_or r (req_calm_b (v_set g) (perm_of cl) (v_sec v) q (r_cfg r) (est_of w r))
               | None => true
               end)
          | _, _ => true
          end
      end
  | _ => sparesb e w j
  end.

Lemma leavesb_ok g j e w : leavesb g j e w = true -> leaves g j e w.
Proof.
  destruct e as [fd|fd|fd v argv|now old|ord]; cbn [leavesb leaves]; intro H; auto; [|exact (sparesb_ok (SIdle now old) w j H)|discriminate].
  intros cl h c r C L S. rewrite C, L, S in H. apply andb_true_iff in H. destruct H as (A & B). split.
  - intros T E. rewrite T, E, bseqb_refl in A. discriminate.
  - intros Cn. rewrite Cn, N.eqb_refl in B. cbn [negb orb] in B. apply andb_true_iff in B. destruct B as (B1 & B2).
    split; [intros ->; discriminate|]. intros q Q. rewrite Q in B2. apply andb_true_iff in B2. destruct B2 as (B2 & B3). apply andb_true_iff in B2. destruct B2 as (B2 & B4).
    split; [apply req_wf_b_ok; exact B2|]. split; [apply N.ltb_lt; exact B4|]. intro I. apply req_calm_b_ok. exact (calm_or_ok _ _ B3 I).
Qed.

Fixpoint all_leaveb (g : server) (j : N) (es : list sevent) (w : world) : bool :=
  match es with
  | [] => true
  | e :: r => leavesb g j e w && match run_sevent g e w with SDone _ _ w1 => all_leaveb g j r w1 | SUndef => true end
  end.

Lemma all_leaveb_ok g j es : forall w, all_leaveb g j es w = true -> all_leave g j es w.
Proof.
  induction es as [|e es IH]; intros w H; cbn [all_leaveb all_leave] in *; [exact I|]. apply andb_true_iff in H. destruct H as (A & B).
  split; [apply leavesb_ok; exact A|]. destruct (run_sevent g e w); [apply IH; exact B|exact I].
Qed.

(* ---- a crash during NSDEL ---- *)

(* whole index files load, whatever is in the table *)
Lemma loop_some l : Forall item_wf l -> forall fuel off t x, (length (enc_items l) <= fuel)%nat ->
  exists t' x', index_load_loop fuel (enc_items l) off t x = Some (t', x').
Proof.
  induction 1 as [|it l W _ IH]; intros fuel off t x Hf; [exists t, x; destruct fuel; reflexivity|].
  rewrite enc_items_cons in Hf |- *. rewrite app_length in Hf.
  assert (L34 : (34 <= length (enc_item it))%nat) by (pose proof (blen_enc_item it) as X; rewrite blen_length in X; lia).
  destruct fuel as [|fuel]; [lia|]. rewrite load_step by (intro X; apply (f_equal (@length byte)) in X; rewrite app_length in X; cbn [length] in X; lia).
  cbv zeta. rewrite dec_item_rest by exact W. cbn [it_idlen it_off it_len it_prev it_flags it_dataid it_ts it_crc it_pid it_poff it_id].
  pose proof W as (I1 & _). replace (34 + it_idlen it) with (blen (enc_item it)) by (rewrite blen_enc_item; lia).
  replace (blen (enc_item it ++ enc_items l) <? blen (enc_item it)) with false by (rewrite blen_app; lia).
  rewrite nskip_app_exact' by reflexivity.
  destruct (index_set_memory _ _ _ _) as [[t1 x1] e]. destruct (if is_deleted (e_flags e) then _ else _) as [t2 x2]. apply IH. lia.
Qed.

Lemma rehash_id x : x_indexid (index_rehash x) = x_indexid x.
Proof.
  unfold index_rehash, index_seqid_push. destruct (x_mode x =? MODE_SEQ); destruct (x_seq x) as [[|]|] eqn:E; cbn [x_set_seq x_seq x_indexid]; rewrite ?E; reflexivity.
Qed.

Definition mode_fits (smode m : N) : Prop := (m = MODE_KV \/ m = MODE_SEQ) /\ (smode = MODE_MIX \/ smode = m).

Lemma load_file_some smode m s g1 l g2 : mode_fits smode m -> Forall item_wf l ->
  dk_i (dk s) = enc_ifs m 0 (g1 ++ l :: g2) -> x_indexid (ix s) = nlen g1 -> nlen g1 < 4294967296 ->
  exists s', index_load_file smode s = LOk s' /\ dk_i (dk s') = dk_i (dk s).
Proof.
  intros (Hm & Hs) W Hi Hx Hf. assert (M : m < 256) by (destruct Hm as [->| ->]; reflexivity).
  assert (E0 : dk_i (do_write (MkI (nlen g1)) (dk s)) = enc_ifs m 0 (g1 ++ l :: g2)).
  { unfold do_write. cbn [apply_write fst snd dk_i]. rewrite mkfile_idle; [exact Hi|]. rewrite Hi, nlen_enc_ifs, nlen_app. cbn [nlen]. lia. }
  unfold index_load_file. rewrite Hx. cbv zeta. set (d0 := do_write (MkI (nlen g1)) (dk s)) in *.
  unfold ifile. rewrite E0, nget_enc_ifs. rewrite N.add_0_l.
  assert (EH : fread (enc_if m (nlen g1) l) 0 29 = index_header (nlen g1) m).
  { change (fread (enc_if m (nlen g1) l) 0 29) with (fread ([] ++ index_header (nlen g1) m ++ enc_items l) (blen []) 29).
    apply fread_app. now rewrite blen_index_header. }
  rewrite EH, blen_index_header. change (29 =? 29) with true. cbv iota.
  unfold index_load_body. rewrite <- (app_nil_r (index_header (nlen g1) m)). rewrite dec_index_header by (exact Hf || exact M).
  cbn [ih_magic ih_version ih_created ih_opened ih_fileid ih_mode].
  change (bseqb (str "IDX0") (str "IDX0")) with true. change (ZDB_IDXFILE_VERSION =? ZDB_IDXFILE_VERSION) with true. cbn [negb].
  cbv zeta. cbn [set_dk tb ix dt dk]. rewrite rehash_id.
  replace (x_indexid (if (m =? MODE_SEQ) || (m =? MODE_KV) then x_set_mode m (ix s) else ix s)) with (nlen g1)
    by (destruct ((m =? MODE_SEQ) || (m =? MODE_KV)); symmetry; exact Hx).
  replace (negb (smode =? MODE_MIX) && negb (m =? smode)) with false
    by (destruct Hs as [->| ->]; [reflexivity|rewrite N.eqb_refl, andb_false_r; reflexivity]).
  fold (index_header (nlen g1) m). set (d1 := do_write (WrI (nlen g1) 0 (index_header (nlen g1) m)) d0).
  assert (E1 : dk_i d1 = enc_ifs m 0 (g1 ++ l :: g2)).
  { unfold d1, do_write. cbn [apply_write fst snd dk_i]. rewrite E0. apply wr_header_idle. }
  unfold ifile. rewrite E1, nget_enc_ifs, N.add_0_l.
  assert (EB : nskip 29 (enc_if m (nlen g1) l) = enc_items l).
  { unfold enc_if. apply nskip_app_exact'. now rewrite blen_index_header. }
  rewrite EB.
  match goal with |- context [index_load_loop ?f ?b ?o ?t ?x] => destruct (loop_some l W f o t x (le_n _)) as (t' & x' & R) end.
  rewrite R. eexists. split; [reflexivity|]. cbn [dk]. congruence.
Qed.

Lemma set_id_id f x : x_indexid (index_set_id f x) = f.
Proof. unfold index_set_id. destruct (dirty_resize_shape f (x_set_indexid f x)) as (a & b & ->). reflexivity. Qed.

Lemma load_files_some smode m gi : mode_fits smode m -> Forall (Forall item_wf) gi -> nlen gi <= 4294967296 ->
  forall g2 g1 s, gi = g1 ++ g2 -> dk_i (dk s) = enc_ifs m 0 gi -> exists s', index_load_files smode (length g2) (nlen g1) s = LOk s'.
Proof.
  intros Hm W Hn. induction g2 as [|l g2 IH]; intros g1 s E Hi; cbn [length index_load_files]; [exists s; reflexivity|].
  destruct (load_file_some smode m (set_ix (index_set_id (nlen g1) (ix s)) s) g1 l g2) as (s1 & R1 & R2); auto.
  - subst gi. apply Forall_app in W. destruct W as (_ & W). inversion W; assumption.
  - cbn [set_ix dk]. rewrite Hi, E. reflexivity.
  - apply set_id_id.
  - rewrite E, nlen_app in Hn. cbn [nlen] in Hn. lia.
  - rewrite R1. replace (nlen g1 + 1) with (nlen (g1 ++ [l])) by (rewrite nlen_app; reflexivity).
    apply IH; [now rewrite <- app_assoc|]. rewrite R2. exact Hi.
Qed.

Lemma open_some smode m gi n t d : mode_fits smode m -> Forall (Forall item_wf) gi -> 0 < nlen gi -> nlen gi <= 4294967296 ->
  dk_i d = enc_ifs m 0 gi -> store_open smode n t d <> None.
Proof.
  intros Hm W L0 Hn Hi. unfold store_open, index_internal_load. cbv zeta. cbn [dk]. rewrite Hi, nlen_enc_ifs.
  replace (0 <? nlen gi) with true by lia.
  match goal with |- context [index_load_files _ _ 0 ?s] => destruct (load_files_some smode m gi Hm W Hn gi [] s eq_refl) as (s' & R) end; [exact Hi|].
  replace (length (enc_ifs m 0 gi)) with (length gi).
  2: { pose proof (nlen_enc_ifs m 0 gi) as X. rewrite !nlen_length in X. lia. }
  cbn [nlen] in R. rewrite R. discriminate.
Qed.

Lemma open_new smode n t d : smode = MODE_KV \/ smode = MODE_SEQ \/ smode = MODE_MIX -> dk_i d = [] -> store_open smode n t d <> None.
Proof.
  intros Hs Hi. destruct d as [di dd lg io]. cbn [dk_i] in Hi. subst di. destruct Hs as [->|[->| ->]]; vm_compute; discriminate.
Qed.

Lemma flat_items (P : loc -> Prop) gi : (forall x, P x -> item_wf (l_it x)) -> forall f, Forall P (flat f gi) -> Forall (Forall item_wf) gi.
Proof.
  intro HP. induction gi as [|l gi IH]; intros f F; [constructor|]. cbn [flat] in F. apply Forall_app in F. destruct F as (F1 & F2).
  constructor; [|exact (IH _ F2)]. revert F1. clear - HP. generalize 29. induction l as [|it l IH]; intros off F; [constructor|].
  cbn [place] in F. inversion F as [|? ? A B]; subst. constructor; [exact (HP _ A)|exact (IH _ B)].
Qed.

Lemma firstn_ifs m k : forall gi f, firstn k (enc_ifs m f gi) = enc_ifs m f (firstn k gi).
Proof. induction k as [|k IH]; intros [|l gi] f; cbn [firstn enc_ifs]; try reflexivity. rewrite IH. reflexivity. Qed.

Lemma holds_files g i s x : server_ok g -> holds g i s x ->
  exists m gi, mode_fits (g_mode (v_set g)) m /\ Forall (Forall item_wf) gi /\ nlen gi <= 4294967296 /\ dk_i (dk s) = enc_ifs m 0 gi.
Proof.
  intros _ U. unfold holds in U. destruct (d_content x); destruct U as (M & gi & H & U & _).
  - exists MODE_KV, gi. pose proof (ui_f _ _ _ _ U) as F. split; [split; [left; reflexivity|destruct M; auto]|].
    split; [eapply flat_items; [|exact (fi_wf _ _ _ _ F)]; intros y Y; apply Y|]. split; apply F.
  - destruct U as (mm & U & _). exists MODE_SEQ, gi. pose proof (si_f _ _ _ _ _ U) as F. split; [split; [right; reflexivity|destruct M; auto]|].
    split; [eapply flat_items; [|exact (sf_wf _ _ _ _ F)]; intros y Y; apply Y|]. split; apply F.
Qed.

Lemma left_loads g w D k rk s' : server_ok g -> SrvInv g w D -> slot k w = Some rk ->
  delete_left (n_name (r_cfg rk), r_desc rk, r_dk rk) (Some s') ->
  fst (fst s') = n_name (r_cfg rk) /\
  forall i t, namespace_load (g_mode (v_set g)) i (fst (fst s')) (snd (fst s')) (snd s') t <> None.
Proof.
  intros G V S L. destruct (sv_live _ _ _ V k rk S) as (x & _ & _ & U & _ & De).
  destruct (holds_files g k (est_of w rk) x G U) as (m & gi & Hm & Wf & Hn & Hi). cbn [est_of dk] in Hi.
  inversion L as [name desc d kept n E1 E2|]; subst. cbn [fst snd]. split; [reflexivity|]. intros i t.
  unfold namespace_load. destruct (descriptor_load _ _) as [[cf ds]|] eqn:Dl.
  2: { exfalso. destruct kept; [rewrite (proj1 De) in Dl; discriminate|discriminate Dl]. }
  match goal with |- context [store_open ?sm ?n0 ?t0 ?d0] => assert (O : store_open sm n0 t0 d0 <> None) end.
  2: { destruct (store_open _ _ _ _); [discriminate|congruence]. }
  destruct (firstn n gi) as [|l gi'] eqn:Ef.
  - apply open_new; [apply G|]. cbn [dk_i]. rewrite Hi, firstn_ifs, Ef. reflexivity.
  - apply (open_some (g_mode (v_set g)) m (firstn n gi)); [exact Hm| | | |cbn [dk_i]; rewrite Hi, firstn_ifs; reflexivity].
    + rewrite <- (firstn_skipn n gi) in Wf. apply Forall_app in Wf. apply Wf.
    + rewrite Ef. cbn [nlen]. lia.
    + rewrite <- (firstn_skipn n gi), nlen_app in Hn. lia.
Qed.

Lemma load_all_some g : forall l i t, (forall k, i <= k -> TInv t k []) ->
  Forall (fun s => (exists x, boots g s x) \/ forall i t, namespace_load (g_mode (v_set g)) i (fst (fst s)) (snd (fst s)) (snd s) t <> None) l ->
  load_all (g_mode (v_set g)) i l t <> None.
Proof.
  induction l as [|[[name desc] d] l IH]; intros i t T F; cbn [load_all]; [discriminate|]. inversion F as [|? ? F1 F2]; subst. cbn [fst snd] in F1.
  destruct (descriptor_load name desc); [|apply IH; assumption].
  destruct (namespace_load (g_mode (v_set g)) i name desc d t) as [[t1 r1]|] eqn:L.
  - assert (X : load_all (g_mode (v_set g)) (i + 1) l t1 <> None).
    { apply IH; [|exact F2]. intros k K. apply ns_load_frame in L. eapply tframe_inv; [|apply L|apply T; lia]. lia. }
    destruct (load_all _ _ _ _) as [[t2 rs]|]; [discriminate|congruence].
  - exfalso. destruct F1 as [(x & _ & _ & B)|F1]; [|exact (F1 i t L)].
    destruct (B i t (T i (N.le_refl i))) as (t' & r & E & _). cbn [fst snd] in E. congruence.
Qed.

Lemma nsdel_theorem g es0 outs0 w0 w k rk o ord :
  server_ok g -> first_boot g = Some w0 -> all_covered g es0 w0 -> run_sevents g es0 w0 = Some (outs0, w) ->
  (forall i r, slot i w = Some r -> in_sequential r -> settled (est_of w r)) ->
  slot k w = Some rk -> delete_left (n_name (r_cfg rk), r_desc rk, r_dk rk) o ->
  (exists desc d l, ord = (str "default", desc, d) :: l) ->
  Forall (fun s => o = Some s \/ exists i r, slot i w = Some r /\ s = (n_name (r_cfg r), r_desc r, r_dk r)) ord ->
  boot g ord <> None.
Proof.
  intros G B A R Se S Le (desc & d & l & ->) F. destruct (server_run g es0 outs0 w0 w G B A R) as (D & _ & V).
  assert (Q : Forall (fun s => (exists x, boots g s x) \/ forall i t, namespace_load (g_mode (v_set g)) i (fst (fst s)) (snd (fst s)) (snd s) t <> None)
    ((str "default", desc, d) :: l)).
  { eapply Forall_impl; [|exact F]. intros s [->|(i & r & Si & ->)].
    - right. exact (proj2 (left_loads g w D k rk s G V S Le)).
    - left. destruct (sv_live _ _ _ V i r Si) as (x & Dx & Cx & U & Co & De). exists x.
      apply disk_boots; rewrite ?Cx; auto. exact (holds_disk g i (est_of w r) x U (Se i r Si)). }
  unfold boot. destruct (descriptor_load (str "default") desc) eqn:Dl.
  - pose proof (load_all_some g _ 0 empty_table (fun k _ => tinv_empty k) Q) as X.
    destruct (load_all _ _ _ _) as [[t slots]|]; [discriminate|congruence].
  - exfalso. inversion Q as [|? ? Q1 _]; subst. cbn [fst snd] in Q1. destruct Q1 as [(x & _ & _ & Q1)|Q1].
    + destruct (Q1 0 empty_table (tinv_empty 0)) as (t' & r & E & _). cbn [fst snd] in E. unfold namespace_load in E. rewrite Dl in E. discriminate.
    + apply (Q1 0 empty_table). unfold namespace_load. rewrite Dl. reflexivity.
Qed.
