(* PROOFS for the command line. *)
From Coq Require Import Strings.String Strings.Byte List NArith ZArith Bool Lia ZifyBool ZifyN ZifyNat.
From Verif Require Import Bytes BytesFacts Layout Store Text TextFacts Commands Namespace System Server SpecServer Options SpecOptions.
Import ListNotations.
Open Scope N_scope.
Local Notation length := List.length.

(* ---- sizes ---- *)

Lemma space_blank b : is_space b = true <-> blank b.
Proof.
  unfold blank. split.
  - destruct b; vm_compute; intros H; try discriminate H; tauto.
  - intros H. cbn [In] in H. destruct H as [<-|[<-|[<-|[<-|[<-|[<-|[]]]]]]]; reflexivity.
Qed.

Lemma skip_space_split s : exists sp, s = sp ++ skip_space s /\ Forall blank sp /\ match skip_space s with b :: _ => is_space b = false | [] => True end.
Proof.
  induction s as [|b s (sp & E & F & H)]; cbn [skip_space]; [exists []; auto|].
  destruct (is_space b) eqn:B.
  - exists (b :: sp). split; [cbn [app]; congruence|]. split; [constructor; [now apply space_blank|exact F]|exact H].
  - exists []. split; [reflexivity|]. split; [constructor|exact B].
Qed.
Lemma skip_space_app sp t : Forall blank sp -> match t with b :: _ => is_space b = false | [] => True end -> skip_space (sp ++ t) = t.
Proof.
  intros F H. induction F as [|b sp B F IH]; cbn [app skip_space].
  - destruct t; cbn [skip_space]; [reflexivity|now rewrite H].
  - apply space_blank in B. now rewrite B.
Qed.

Lemma digits_of_split s : forall ds r, digits_of s = (ds, r) -> s = ds ++ r /\ forallb is_digit ds = true.
Proof.
  induction s as [|b s IH]; intros ds r E; cbn [digits_of] in E; [injection E as <- <-; auto|].
  destruct (is_digit b) eqn:B; [|injection E as <- <-; auto].
  destruct (digits_of s) as [d r']. injection E as <- <-. destruct (IH d r' eq_refl) as [-> F]. cbn [app forallb]. rewrite B, F. auto.
Qed.
Lemma digits_of_app ds t : forallb is_digit ds = true -> match t with b :: _ => is_digit b = false | [] => True end -> digits_of (ds ++ t) = (ds, t).
Proof.
  intros F H. induction ds as [|b ds IH]; cbn [app digits_of].
  - destruct t; cbn [digits_of]; [reflexivity|now rewrite H].
  - cbn [forallb] in F. apply andb_true_iff in F. destruct F as [B F]. now rewrite B, (IH F).
Qed.

Lemma number_parse ds : forall a, forallb is_digit ds = true -> parse_digits ds a = fold_left (fun n d => n * 10 + (b2n d - 48)) ds a.
Proof.
  induction ds as [|b ds IH]; intros a F; cbn [parse_digits fold_left]; [reflexivity|].
  cbn [forallb] in F. apply andb_true_iff in F. destruct F as [B F]. rewrite B. now apply IH.
Qed.

Lemma suffix_unit t k : suffix_shift t = Some k <-> unit_is t (2 ^ k) /\ In k [0; 10; 20; 30; 40].
Proof.
  split.
  - destruct t as [|b t]; [intros [= <-]; split; [constructor|now left]|].
    destruct b; intros E; try discriminate E; injection E as <-; (split; [constructor|cbn; tauto]).
  - intros [U I]. cbn [In] in I. destruct I as [<-|[<-|[<-|[<-|[<-|[]]]]]]; inversion U; reflexivity.
Qed.
Lemma unit_shift t u : unit_is t u -> exists k, suffix_shift t = Some k /\ u = 2 ^ k.
Proof. intros []; [exists 0|exists 10|exists 20|exists 30|exists 40]; split; reflexivity. Qed.

Lemma size_iff s n : human_readable_parse s = SzSome n <-> is_size s n /\ n < 18446744073709551616.
Proof.
  unfold human_readable_parse. split.
  - intros E. destruct (skip_space_split s) as (sp & Es & F & _). destruct (digits_of (skip_space s)) as [ds r] eqn:D.
    apply digits_of_split in D. destruct D as [D Fd]. destruct ds as [|d ds].
    { destruct r; [discriminate|]. destruct (_ || _) in E; discriminate. }
    destruct (_ || _) in E; [discriminate|]. destruct (suffix_shift r) as [k|] eqn:K; [|discriminate].
    rewrite (number_parse (d :: ds) 0 Fd) in E. fold (number (d :: ds)) in E.
    destruct (N.leb_spec 18446744073709551616 (number (d :: ds))); [discriminate|].
    destruct (N.leb_spec 18446744073709551616 (number (d :: ds) * 2 ^ k)); [discriminate|].
    assert (n = number (d :: ds) * 2 ^ k) as -> by congruence. clear E.
    split; [|assumption]. apply suffix_unit in K. destruct K as [K _].
    exists sp, (d :: ds), r, (2 ^ k). split; [congruence|]. split; [exact F|]. split; [discriminate|]. split; [exact Fd|]. split; [exact K|reflexivity].
  - intros [(sp & ds & t & u & -> & F & Ne & Fd & U & ->) B].
    destruct ds as [|d ds]; [congruence|]. rewrite skip_space_app; [|exact F|].
    2:{ cbn [app]. cbn [forallb] in Fd. apply andb_true_iff in Fd. destruct Fd as [Fd _]. destruct d; try discriminate Fd; reflexivity. }
    rewrite digits_of_app; [|exact Fd|inversion U; auto].
    destruct (unit_shift t u U) as (k & K & ->).
    assert (Sp : (let c := match t with b :: _ => b2n b | [] => 0 end in (c =? 46) || (c =? 101) || (c =? 69) || (c =? 120) || (c =? 88)) = false) by (inversion U; reflexivity).
    cbn zeta in Sp |- *. rewrite Sp, K. rewrite number_parse by exact Fd. fold (number (d :: ds)).
    assert (P : 1 <= 2 ^ k) by (change 1 with (2 ^ 0); apply N.pow_le_mono_r; lia).
    assert (L : number (d :: ds) <= number (d :: ds) * 2 ^ k) by nia.
    destruct (N.leb_spec 18446744073709551616 (number (d :: ds))); [lia|].
    destruct (N.leb_spec 18446744073709551616 (number (d :: ds) * 2 ^ k)); [lia|reflexivity].
Qed.

Lemma size_one s n m : is_size s n -> is_size s m -> n = m.
Proof.
  intros (sp & ds & t & u & E & F & Ne & Fd & U & ->) (sp' & ds' & t' & u' & E' & F' & Ne' & Fd' & U' & ->).
  assert (X : forall sp ds t u, Forall blank sp -> ds <> [] -> forallb is_digit ds = true -> unit_is t u -> digits_of (skip_space (sp ++ ds ++ t)) = (ds, t)).
  { clear. intros sp ds t u F Ne Fd U. rewrite skip_space_app; [|exact F|].
    2:{ destruct ds as [|d ds]; [congruence|]. cbn [app]. cbn [forallb] in Fd. apply andb_true_iff in Fd. destruct Fd as [Fd _]. destruct d; try discriminate Fd; reflexivity. }
    apply digits_of_app; [exact Fd|inversion U; auto]. }
  pose proof (X _ _ _ _ F Ne Fd U) as X1. pose proof (X _ _ _ _ F' Ne' Fd' U') as X2. rewrite <- E in X1. rewrite <- E' in X2. rewrite X1 in X2.
  injection X2 as <- <-. destruct (unit_shift t u U) as (k & K & ->). destruct (unit_shift t u' U') as (k' & K' & ->). congruence.
Qed.

Lemma mode_one s n m : is_mode s n -> is_mode s m -> n = m.
Proof. intros [[-> ->]|[[-> ->]|[-> ->]]] [[E ->]|[[E ->]|[E ->]]]; try reflexivity; vm_compute in E; discriminate E. Qed.

(* ---- the options ---- *)

Fixpoint go (l : list opt) (a : args) : option args :=
  match l with
  | [] => Some a
  | o :: t => match option_step o a with Go a' => go t a' | _ => None end
  end.

Lemma run_go l : forall a b, options_run l a = Starts b <-> exists a', go l a = Some a' /\ options_done a' = Starts b.
Proof.
  induction l as [|o l IH]; intros a b; cbn [options_run go].
  - split; [eauto|]. intros (a' & [= <-] & E). exact E.
  - destruct (option_step o a); [apply IH| | |]; (split; [discriminate|]; intros (a' & E & _); discriminate).
Qed.
Lemma go_snoc l o : forall a, go (l ++ [o]) a = match go l a with Some a1 => match option_step o a1 with Go a2 => Some a2 | _ => None end | None => None end.
Proof.
  induction l as [|x l IH]; intros a; cbn [app go]; [destruct (option_step o a); reflexivity|]. destruct (option_step x a); auto.
Qed.
Lemma last_of_snoc {A} (f : opt -> option A) l o : last_of f (l ++ [o]) = match f o with Some x => Some x | None => last_of f l end.
Proof.
  induction l as [|x l IH]; cbn [app last_of]; [destruct (f o); reflexivity|]. rewrite IH. destruct (f o); reflexivity.
Qed.
Lemma given_snoc f l o : given (l ++ [o]) f = given l f || f o.
Proof. unfold given. rewrite existsb_app. cbn [existsb]. now rewrite orb_false_r. Qed.

Lemma step_fine o a a' : option_step o a = Go a' -> fine o.
Proof.
  destruct o; cbn [option_step fine]; try (intros; exact I); try discriminate.
  - destruct (bseqb_spec s (str "user")); [subst; eexists; left; split; reflexivity|].
    destruct (bseqb_spec s (str "seq")); [subst; eexists; right; left; split; reflexivity|].
    destruct (bseqb_spec s (str "direct")); [subst; eexists; right; right; split; reflexivity|discriminate].
  - destruct (human_readable_parse s) as [|n| |] eqn:E; try discriminate.
    destruct (N.leb_spec 4294967295 n); [discriminate|]. destruct (N.ltb_spec n 524288); [discriminate|]. intros _.
    apply size_iff in E. exists n. split; [apply E|]. lia.
Qed.
Lemma fine_step o a : fine o -> exists a', option_step o a = Go a'.
Proof.
  destruct o; cbn [option_step fine]; try (intros _; eexists; reflexivity); try contradiction.
  - intros (m & [[-> _]|[[-> _]|[-> _]]]); eexists; reflexivity.
  - intros (n & Z & B). assert (E : human_readable_parse s = SzSome n) by (apply size_iff; split; [exact Z|lia]). rewrite E.
    destruct (N.leb_spec 4294967295 n); [lia|]. destruct (N.ltb_spec n 524288); [lia|]. eexists; reflexivity.
Qed.
Lemma go_fine l : forall a a', go l a = Some a' -> Forall fine l.
Proof.
  induction l as [|o l IH]; intros a a' E; constructor; cbn [go] in E; destruct (option_step o a) eqn:S; try discriminate.
  - eapply step_fine; eauto.
  - eapply IH; eauto.
Qed.
Lemma fine_go l : forall a, Forall fine l -> exists a', go l a = Some a'.
Proof.
  induction l as [|o l IH]; intros a F; [eexists; reflexivity|]. inversion F; subst. cbn [go].
  destruct (fine_step o a) as (a1 & ->); auto.
Qed.

(* what is known before the last lines of main: as wanted, but for listen *)
Definition read (l : list opt) (a : args) : Prop :=
  a_listen a = Some (or_else (str "::") (last_of (fun o => match o with OListen s => Some s | _ => None end) l)) /\
  wanted l (mkArgs (a_data a) (a_index a)
    (if given l (fun o => match o with OSocket _ => true | _ => false end) && negb (given l (fun o => match o with ODualnet => true | _ => false end)) then None else a_listen a)
    (a_port a) (a_socket a) (a_dualnet a) (a_verbose a) (a_background a) (a_logfile a) (a_dump a) (a_sync a) (a_synctime a) (a_secure a)
    (a_hook a) (a_admin a) (a_protect a) (a_maxsize a) (a_mode a) (a_rotate a) (a_datasize a)).

Lemma go_read l : forall a, go l defaults = Some a -> read l a.
Proof.
  induction l as [|o l IH] using rev_ind; intros a E.
  - injection E as <-. unfold read, wanted. cbn. repeat split.
  - rewrite go_snoc in E. destruct (go l defaults) as [a1|] eqn:G; [|discriminate]. specialize (IH a1 eq_refl).
    destruct (option_step o a1) as [a2| | |] eqn:S; try discriminate. injection E as <-.
    destruct IH as (Hl & W). unfold wanted in W. cbn [a_data a_index a_listen a_port a_socket a_dualnet a_verbose a_background a_logfile a_dump a_sync a_synctime a_secure a_hook a_admin a_protect a_maxsize a_mode a_rotate a_datasize] in W.
    repeat match type of W with _ /\ _ => let X := fresh "X" in destruct W as [X W] end.
    unfold read, wanted. rewrite !last_of_snoc, !given_snoc.
    assert (Sz : forall s n, human_readable_parse s = SzSome n -> is_size s n) by (intros s n Q; now apply size_iff in Q).
    destruct o; cbn [option_step] in S; try discriminate S;
      [| | | | | | | | | |
       destruct (bseqb_spec s (str "user")); [|destruct (bseqb_spec s (str "seq")); [|destruct (bseqb_spec s (str "direct")); [|discriminate S]]]
       | | | | |
       destruct (human_readable_parse s) eqn:P; try discriminate S; destruct (4294967295 <=? n); [discriminate S|]; destruct (n <? 524288); [discriminate S|]
       | | | | ];
      apply (f_equal (fun t => match t with Go x => x | _ => a2 end)) in S; cbv beta iota in S; subst a2;
      cbn [a_data a_index a_listen a_port a_socket a_dualnet a_verbose a_background a_logfile a_dump a_sync a_synctime a_secure a_hook a_admin a_protect a_maxsize a_mode a_rotate a_datasize];
      rewrite ?orb_false_r, ?orb_true_r; cbn [or_else];
      repeat match goal with |- _ /\ _ => split end; auto; try (rewrite Hl; reflexivity); unfold is_mode; tauto.
Qed.

Lemma last_given {A} (f : opt -> option A) l : match last_of f l with Some _ => true | None => false end = given l (fun o => match f o with Some _ => true | None => false end).
Proof.
  induction l as [|o l IH]; cbn [last_of given existsb]; [reflexivity|]. unfold given in IH. rewrite <- IH. destruct (last_of f l); [now rewrite orb_true_r|].
  destruct (f o); reflexivity.
Qed.
Lemma given_socket l : match last_of (fun o => match o with OSocket s => Some s | _ => None end) l with Some _ => true | None => false end =
  given l (fun o => match o with OSocket _ => true | _ => false end).
Proof. rewrite last_given. unfold given. induction l as [|o l IH]; cbn [existsb]; [reflexivity|]. rewrite IH. destruct o; reflexivity. Qed.

Lemma args_eq a b : a_data a = a_data b -> a_index a = a_index b -> a_listen a = a_listen b -> a_port a = a_port b -> a_socket a = a_socket b -> a_dualnet a = a_dualnet b -> a_verbose a = a_verbose b -> a_background a = a_background b -> a_logfile a = a_logfile b -> a_dump a = a_dump b -> a_sync a = a_sync b -> a_synctime a = a_synctime b -> a_secure a = a_secure b -> a_hook a = a_hook b -> a_admin a = a_admin b -> a_protect a = a_protect b -> a_maxsize a = a_maxsize b -> a_mode a = a_mode b -> a_rotate a = a_rotate b -> a_datasize a = a_datasize b -> a = b.
Proof. destruct a, b; cbn; intros; subst; reflexivity. Qed.

Lemma wanted_one l a b : wanted l a -> wanted l b -> a = b.
Proof.
  unfold wanted. intros A B.
  repeat match type of A with _ /\ _ => let X := fresh "A" in destruct A as [X A] end.
  repeat match type of B with _ /\ _ => let X := fresh "B" in destruct B as [X B] end.
  assert (M : a_mode a = a_mode b) by (destruct (last_of (fun o => match o with OMode s => Some s | _ => None end) l); [eapply mode_one; eassumption|etransitivity; [eassumption|symmetry; eassumption]]).
  assert (D : a_datasize a = a_datasize b) by (destruct (last_of (fun o => match o with ODatasize s => Some s | _ => None end) l); [eapply size_one; eassumption|etransitivity; [eassumption|symmetry; eassumption]]).
  apply args_eq; first [exact M|exact D|etransitivity; [eassumption|symmetry; eassumption]].
Qed.

Lemma coherent_iff l a : read l a -> (a_protect a && match a_admin a with None => true | Some _ => false end = false <-> coherent l).
Proof.
  intros (_ & W). unfold wanted in W. repeat match type of W with _ /\ _ => let X := fresh "A" in destruct W as [X W] end.
  cbn [a_data a_index a_listen a_port a_socket a_dualnet a_verbose a_background a_logfile a_dump a_sync a_synctime a_secure a_hook a_admin a_protect a_maxsize a_mode a_rotate a_datasize] in *.
  assert (P : a_protect a = true <-> In OProtect l).
  { match goal with H : a_protect a = _ |- _ => rewrite H end. unfold given. rewrite existsb_exists. split.
    - intros (o & I & E). destruct o; try discriminate. exact I.
    - intros I. exists OProtect. auto. }
  assert (Q : a_admin a <> None <-> exists s, In (OAdmin s) l).
  { match goal with H : a_admin a = _ |- _ => rewrite H end.
    pose proof (last_given (fun o => match o with OAdmin s => Some s | _ => None end) l) as LG. split.
    - intros N. destruct (last_of (fun o => match o with OAdmin s => Some s | _ => None end) l); [|now elim N]. symmetry in LG. unfold given in LG. apply existsb_exists in LG. destruct LG as (o & I & E).
      destruct o; try discriminate. eauto.
    - intros (s & I) N. rewrite N in LG. symmetry in LG. unfold given in LG. apply not_true_iff_false in LG. apply LG. apply existsb_exists. exists (OAdmin s). auto. }
  unfold coherent. rewrite <- P, <- Q. destruct (a_protect a), (a_admin a); cbn [andb]; split; try congruence; try tauto; intros; try congruence.
Qed.

Lemma starts_iff l a : zdbd_main l = Starts a <-> Forall fine l /\ coherent l /\ wanted l a.
Proof.
  assert (Key : forall a1, go l defaults = Some a1 -> coherent l -> exists b, options_done a1 = Starts b /\ wanted l b).
  { intros a1 G C. pose proof (go_read l a1 G) as R. pose proof (proj2 (coherent_iff l a1 R) C) as P. unfold options_done. rewrite P.
    eexists. split; [reflexivity|]. destruct R as (Hl & W).
    assert (S1 : a_socket a1 = last_of (fun o => match o with OSocket s => Some s | _ => None end) l) by apply W.
    assert (S2 : a_dualnet a1 = given l (fun o => match o with ODualnet => true | _ => false end)) by apply W.
    rewrite S1 at 1. rewrite given_socket. rewrite S2 at 1.
    destruct (given l (fun o => match o with OSocket _ => true | _ => false end) && negb (given l (fun o => match o with ODualnet => true | _ => false end))); [exact W|].
    destruct a1. exact W. }
  split.
  - intros E. apply run_go in E. destruct E as (a1 & G & D). pose proof (go_read l a1 G) as R. split; [eapply go_fine; eauto|].
    assert (C : coherent l).
    { apply (coherent_iff l a1 R). unfold options_done in D. destruct (a_protect a1 && _); [discriminate|reflexivity]. }
    split; [exact C|]. destruct (Key a1 G C) as (b & D' & W). rewrite D in D'. injection D' as <-. exact W.
  - intros (F & C & W). destruct (fine_go l defaults F) as (a1 & G). destruct (Key a1 G C) as (b & D & W').
    rewrite (wanted_one l a b W W'). apply run_go. eauto.
Qed.

(* ---- the other ways to end ---- *)

Lemma version_iff l : forall a, options_run l a = Leaves 0 <-> exists l1 l2, l = l1 ++ OVersion :: l2 /\ Forall fine l1.
Proof.
  induction l as [|o l IH]; intros a; cbn [options_run].
  - split; [unfold options_done; destruct (_ && _); discriminate|]. intros (l1 & l2 & E & _). destruct l1; discriminate.
  - destruct (option_step o a) as [a1|c| |] eqn:S.
    + rewrite IH. split; intros (l1 & l2 & E & F).
      * exists (o :: l1), l2. split; [cbn [app]; congruence|]. constructor; [eapply step_fine; eauto|exact F].
      * destruct l1 as [|x l1]; cbn [app] in E; injection E as -> ->; [discriminate S|]. inversion F; subst. eauto.
    + split.
      * intros [= ->]. exists [], l. split; [|constructor]. cbn [app]. f_equal. destruct o; cbn [option_step] in S; try discriminate S; try reflexivity;
          repeat match type of S with context [if ?b then _ else _] => destruct b; try discriminate S end.
        destruct (human_readable_parse s); try discriminate S. repeat match type of S with context [if ?b then _ else _] => destruct b; try discriminate S end.
      * intros (l1 & l2 & E & F). destruct l1 as [|x l1]; cbn [app] in E; injection E as -> ->; [cbn in S; congruence|].
        inversion F; subst. destruct (fine_step x a) as (a' & Q); [assumption|congruence].
    + split; [discriminate|]. intros (l1 & l2 & E & F). destruct l1 as [|x l1]; cbn [app] in E; injection E as -> ->; [discriminate S|].
      inversion F; subst. destruct (fine_step x a) as (a' & Q); [assumption|congruence].
    + split; [discriminate|]. intros (l1 & l2 & E & F). destruct l1 as [|x l1]; cbn [app] in E; injection E as -> ->; [discriminate S|].
      inversion F; subst. destruct (fine_step x a) as (a' & Q); [assumption|congruence].
Qed.

Lemma range l a : zdbd_main l = Starts a -> 512 * 1024 <= a_datasize a < 4294967295.
Proof.
  intros E. apply starts_iff in E. destruct E as (F & _ & W). unfold wanted in W. repeat match type of W with _ /\ _ => let X := fresh "A" in destruct W as [X W] end.
  assert (X : forall s, last_of (fun o => match o with ODatasize s => Some s | _ => None end) l = Some s -> In (ODatasize s) l).
  { clear. induction l as [|o l IH]; cbn [last_of]; [discriminate|]. intros s E. destruct (last_of _ l); [right; apply IH; exact E|].
    destruct o; try discriminate. injection E as ->. now left. }
  destruct (last_of (fun o => match o with ODatasize s => Some s | _ => None end) l) as [s|]; [|rewrite W; lia].
  rewrite Forall_forall in F. destruct (F _ (X s eq_refl)) as (n & Z & B). now rewrite (size_one _ _ _ W Z).
Qed.

Lemma modes l a : zdbd_main l = Starts a -> a_mode a = MODE_KV \/ a_mode a = MODE_SEQ \/ a_mode a = MODE_MIX.
Proof.
  intros E. apply starts_iff in E. destruct E as (F & _ & W). unfold wanted in W. repeat match type of W with _ /\ _ => let X := fresh "A" in destruct W as [X W] end.
  match goal with H : match last_of (fun o => match o with OMode _ => _ | _ => _ end) l with _ => _ end |- _ => destruct (last_of (fun o => match o with OMode s => Some s | _ => None end) l); [destruct H as [[_ H]|[[_ H]|[_ H]]]|]; rewrite H; auto end.
Qed.

Lemma start_ok l a r : zdbd_main l = Starts a -> a_datasize a <= 2 ^ 31 -> server_ok (server_of r a).
Proof. intros E B. split; [exact (modes l a E)|exact B]. Qed.

(* ---- the default namespace ---- *)

Lemma default_start r a l w : proceed r a l = Some w ->
  exists w0, boot (server_of r a) l = Some w0 /\
  (forall i, i <> 0 -> slot i w = slot i w0) /\ w_tb w = w_tb w0 /\ w_eff w = w_eff w0 /\ w_clients w = w_clients w0 /\
  forall r0, slot 0 w0 = Some r0 -> exists r1, slot 0 w = Some r1 /\ r_ix r1 = r_ix r0 /\ r_dt r1 = r_dt r0 /\ r_dk r1 = r_dk r0 /\ r_desc r1 = r_desc r0 /\
    r_cfg r1 = mkCfg (n_name (r_cfg r0)) (match a_protect a, a_admin a with true, Some pw => Some pw | _, _ => n_pass (r_cfg r0) end)
      (n_public (r_cfg r0)) (n_worm (r_cfg r0)) (if a_maxsize a =? 0 then n_maxsize (r_cfg r0) else a_maxsize a) (n_lock (r_cfg r0)).
Proof.
  unfold proceed. destruct (boot (server_of r a) l) as [w0|]; [|discriminate]. intros E. exists w0. split; [reflexivity|].
  assert (PS : forall v o i, slot 0 v <> None -> slot i (put_slot 0 o v) = if i =? 0 then o else slot i v).
  { intros v o i H. unfold slot, put_slot in *. cbn [w_slots]. destruct (w_slots v) as [|x t]; cbn [nget nset] in *; [now elim H|].
    change (0 =? 0) with true. cbv iota. cbn [nget]. destruct (N.eqb_spec i 0) as [->|Hi]; reflexivity. }
  unfold protect_default, limit_default in E.
  destruct (slot 0 w0) as [r0|] eqn:S0.
  2:{ assert (w = w0) as ->; [|split; [auto|split; [auto|split; [auto|split; [auto|discriminate]]]]].
      destruct (a_protect a), (a_admin a), (a_maxsize a =? 0); rewrite ?S0 in E; congruence. }
  assert (Ne : slot 0 w0 <> None) by congruence.
  destruct (a_protect a) eqn:P, (a_admin a) as [pw|] eqn:A, (a_maxsize a =? 0) eqn:Z;
    (rewrite ?S0 in E; try rewrite (PS _ _ _ Ne) in E; try (change (0 =? 0) with true in E; cbv iota in E); injection E as <-;
     split; [intros i Hi; rewrite ?PS by (rewrite ?PS by exact Ne; try exact Ne; try discriminate); apply N.eqb_neq in Hi; rewrite ?Hi; reflexivity|];
     split; [reflexivity|]; split; [reflexivity|]; split; [reflexivity|]; intros q [= <-];
     rewrite ?PS by (rewrite ?PS by exact Ne; try exact Ne; try discriminate); rewrite ?N.eqb_refl, ?S0;
     eexists; split; [reflexivity|]; cbn [r_ix r_dt r_dk r_desc r_cfg n_name n_pass n_public n_worm n_maxsize n_lock]; repeat split; destruct r0 as [[]]; reflexivity).
Qed.
