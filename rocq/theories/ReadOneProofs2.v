(** Proofs about Calendar.parseComponent: calendars that were written, and directories of zones. *)
From Coq Require Import Lia.
From Verif Require Import PyBase PyProofs LineProofs PropertySpec ComponentModel ComponentSpec ComponentProofs ComponentProofs3 ComponentProofs4 ComponentProofs5 TzDbModel TzDbSpec ReadOneModel ReadOneSpec ReadOneProofs.

Section Written.
Variable tzo : tzid -> Z -> Z -> Z -> Z -> Z -> Z -> bool -> bool -> Z.
Variable ctx : pctx.
Variable fl : floats.
Variable uuids : nat -> bytes.

Lemma begin_not k : beginDelimiter k <> closing.
Proof. intros H. discriminate H. Qed.
Lemma props_not k ps : props_ok ctx fl ps -> ~ In closing (map (line_of fl) (written_props k ps)).
Proof.
  intros P I. destruct (read_props ctx fl k ps P) as [qs Q]. apply in_map_iff in I as (p & E & I). revert I. induction Q as [|x y l l' (_ & _ & _ & L & _) _ IH]; [intros []|].
  intros [-> | I]; [|exact (IH I)]. exact (L (lit "VCALENDAR") E).
Qed.
Lemma tree_not c : tree_ok ctx fl c -> ~ In closing (lines_of fl c).
Proof.
  induction c as [k s ps subs IH] using comp_tree_ind. intro T. inversion T as [? ? ? ? K P C Ne Ts E]; subst. rewrite lines_of_eq. intros [H|H]; [exact (begin_not k H)|].
  rewrite !in_app_iff in H. destruct H as [H|[H|[H|[]]]].
  - exact (props_not k ps P H).
  - apply in_concat in H as (ls & I & J). apply in_map_iff in I as (c & <- & I). apply (Permutation.Permutation_in _ (sorted_perm _ _)) in I. rewrite Forall_forall in *. exact (IH c I (Ts c I) J).
  - refine (not_calendar tzo ctx fl uuids k K _). unfold endDelimiter in H. change closing with (lit "END:" ++ lit "VCALENDAR") in H. apply app_inv_head in H. exact H.
Qed.
Lemma count_none ls : ~ In closing ls -> count_occ (list_eq_dec Ascii.ascii_dec) ls closing = 0%nat.
Proof. apply count_occ_not_In. Qed.
Lemma written_once c text : calendar_ok ctx fl c -> generate fl c = Some (Ok text) -> (count_occ (list_eq_dec Ascii.ascii_dec) (unfolded text) closing <= 1)%nat.
Proof.
  destruct c as [k s ps subs]. intros (K & P & Hv & Hc & Ts) G. cbn [cKind cProps cSubs] in *. subst k.
  destruct (generate_lines ctx fl (Comp VCALENDAR s ps subs)) as (t & Eg & W).
  { constructor; [apply type_text; right; reflexivity|assumption|]. eapply Forall_impl; [|exact Ts]. intro; apply tree_writable. }
  rewrite G in Eg. injection Eg as <-. unfold unfolded. rewrite (read_written _ _ W), lines_of_eq. cbn [count_occ]. destruct (list_eq_dec _ _ _) as [X|_]; [destruct (begin_not _ X)|].
  rewrite !count_occ_app. pose proof (count_none _ (props_not VCALENDAR ps P)) as X1. match goal with |- (?a + (?b + ?c) <= 1)%nat => change a with (count_occ (list_eq_dec Ascii.ascii_dec) (map (line_of fl) (written_props VCALENDAR ps)) closing) end. rewrite X1, (count_none (List.concat _)).
  - cbn [count_occ plus]. destruct (list_eq_dec _ _ _); lia.
  - intros H. apply in_concat in H as (ls & I & J). apply in_map_iff in I as (c & <- & I). apply (Permutation.Permutation_in _ (sorted_perm _ _)) in I. rewrite Forall_forall in Ts. exact (tree_not c (Ts c I) J).
Qed.
Lemma written_read c text cal : calendar_ok ctx fl c -> generate fl c = Some (Ok text) -> parseTextData tzo ctx fl uuids text = Ok (Some cal) ->
  exists r zs, parseComponent tzo ctx fl uuids empty_calendar text = (with_subs empty_calendar (cSubs cal), Ok (r, zs)) /\ (cSubs cal <> [] -> r = hd_error (cSubs cal)).
Proof.
  intros O G R. unfold parseTextData in R. fold empty_calendar in R. destruct (parse tzo ctx fl uuids empty_calendar text) as [[[] c']|] eqn:E; cbn [rbind fst snd] in R; [|discriminate|discriminate].
  injection R as <-. pose proof (same tzo ctx fl uuids empty_calendar text c' eq_refl E (written_once c text O G)) as S.
  destruct (accepts tzo ctx fl uuids empty_calendar text _ eq_refl E) as ((r & zs) & A). destruct (kept tzo ctx fl uuids empty_calendar text) as (new & S' & F).
  exists r, zs. split; [rewrite <- S, <- A; apply surjective_pairing|]. rewrite S in S'. injection S' as ->. exact (F r zs A).
Qed.

(** A directory whose files have one zone each. *)
Definition getID (c : comp) : bytes := sID (cState c).
Definition holds (n t : bytes) (c : comp) : Prop := cKind c = VTIMEZONE /\ getID c = n /\ exists r, parseComponent tzo ctx fl uuids empty_calendar t = (with_subs empty_calendar [c], Ok r).
Definition stored dir files := db_files tzo ctx fl uuids (directory dir files).
Definition zone_at dir files (id : bytes) : option comp :=
  match stored dir files (abs_path dir ++ "/"%char :: id ++ lit ".ics") with Some ([z], Ok _) => Some z | _ => None end.
Lemma stored_file dir files n t c : directory dir files (abs_path dir ++ "/"%char :: n ++ lit ".ics") = Some t -> holds n t c ->
  stored dir files (abs_path dir ++ "/"%char :: n ++ lit ".ics") = Some ([c], Ok tt).
Proof.
  intros D (K & _ & r & E). unfold stored, db_files. rewrite D. change (Comp VCALENDAR (newState []) [] []) with empty_calendar. rewrite E. cbn [with_subs cSubs filter]. rewrite K. reflexivity.
Qed.
Lemma directory_in dir files path t : directory dir files path = Some t -> exists n, path = abs_path dir ++ "/"%char :: n ++ lit ".ics" /\ In (n, t) files.
Proof.
  unfold directory. match goal with |- option_map snd ?x = _ -> _ => destruct x as [[n t']|] eqn:E end; [|discriminate]. cbn. intros [= <-]. apply List.find_some in E as [I E]. apply beq_eq in E. exists n. auto.
Qed.
Lemma path_inj dir n m : abs_path dir ++ "/"%char :: n ++ lit ".ics" = abs_path dir ++ "/"%char :: m ++ lit ".ics" -> n = m.
Proof. intros E. apply app_inv_head in E. injection E as E. apply app_inv_tail in E. exact E. Qed.
Lemma dir_db dir files : Forall name dir -> ~ In "000"%char (abs_path dir) -> (forall n t, In (n, t) files -> path_name n /\ exists c, holds n t c) ->
  db_dir comp getID (zone_at dir files) (stored dir files) dir.
Proof.
  intros F N H. split; [exact F|]. split; [exact N|]. split.
  - intros id z E. unfold zone_at in E. destruct (directory dir files (abs_path dir ++ "/"%char :: id ++ lit ".ics")) as [t|] eqn:D; [|unfold stored, db_files in E; rewrite D in E; discriminate].
    destruct (directory_in _ _ _ _ D) as (n & P & I). apply path_inj in P. subst n. destruct (H id t I) as ((U & V) & c & Hc). rewrite (stored_file _ _ _ _ _ D Hc) in *. injection E as <-.
    destruct Hc as (_ & Hc & _). auto.
  - intros q zs r E. destruct (directory dir files (abs_path dir ++ q)) as [t|] eqn:D; [|unfold stored, db_files in E; rewrite D in E; discriminate].
    destruct (directory_in _ _ _ _ D) as (n & P & I). rewrite P in *. destruct (H n t I) as (_ & c & Hc). rewrite (stored_file _ _ _ _ _ D Hc) in E. injection E as <- <-.
    exists c. do 2 (split; [reflexivity|]). unfold zone_at. rewrite (proj1 (proj2 Hc)), (stored_file _ _ _ _ _ D Hc). reflexivity.
Qed.
Lemma dir_has dir files n t c : In (n, t) files -> NoDup (map fst files) -> holds n t c -> zone_at dir files n = Some c.
Proof.
  intros I U Hc. unfold zone_at. rewrite (stored_file dir files n t c); [reflexivity| |exact Hc]. unfold directory.
  induction files as [|[m s] l IH]; [destruct I|]. cbn [List.find fst]. destruct (beq _ _) eqn:E.
  - apply beq_eq, path_inj in E. subst m. destruct I as [[= ->]|I]; [reflexivity|]. inversion U as [|? ? X _]; subst. destruct X. apply (in_map fst) in I. exact I.
  - inversion U; subst. destruct I as [[= -> ->]|I]; [rewrite beq_refl in E; discriminate|]. auto.
Qed.
End Written.
