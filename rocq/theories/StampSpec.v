(** What C83 says: the UID, the sequence number and the time stamps of a component. *)
From Verif Require Export StampModel StatusSpec.

Inductive ident_call : Set := CallUID (m : moment) (uid : bytes) | CallSeq (n : Z) | CallStamp (now : tm) | CallModified (now : tm).
Definition edit_ident (md5 : bytes -> bytes) (k : kind) (c : identified) (x : ident_call) : identified :=
  match x with
  | CallUID m u => set_uid md5 m u c
  | CallSeq n => setSeq n c
  | CallStamp now => initDTSTAMP k now c
  | CallModified now => updateLastModified now c
  end.
(** The calls one after the other. *)
Definition edit_idents (md5 : bytes -> bytes) (k : kind) (l : list ident_call) (c : identified) : identified := fold_left (edit_ident md5 k) l c.

Definition set_by (x : ident_call) : bytes :=
  match x with CallUID _ _ => lit "UID" | CallSeq _ => lit "SEQUENCE" | CallStamp _ => lit "DTSTAMP" | CallModified _ => lit "LAST-MODIFIED" end.
(** One property of this name, with this value and no parameter. *)
Definition only (name : bytes) (v : item) (ps : props) : Prop := getProperties name ps = [mkProp name [] (Some (Single v))].
(** A date-time in UTC with these fields. *)
Definition utc_time (now : tm) (d : dt) : Prop :=
  (mYear d, mMonth d, mDay d) = (tmYear now, tmMon now, tmDay now) /\ (mHours d, mMinutes d, mSeconds d) = (tmHour now, tmMin now, tmSec now) /\
  mDateOnly d = false /\ mTZUTC d = true.
(** What is there after the call, in the properties and in the object.  The sequence number that was read stays. *)
Definition ident_given (k : kind) (x : ident_call) (ps' : props) (i i' : ident) : Prop :=
  iOriginal i' = iOriginal i /\
  match x with
  | CallUID _ u => iSeq i' = iSeq i /\ iHasStamp i' = iHasStamp i /\ iStamp i' = iStamp i /\ only (lit "UID") (VText (iUID i')) ps' /\ (u <> [] -> iUID i' = u)
  | CallSeq n => iUID i' = iUID i /\ iHasStamp i' = iHasStamp i /\ iStamp i' = iStamp i /\ only (lit "SEQUENCE") (VInteger n) ps' /\ iSeq i' = n
  | CallStamp now => iUID i' = iUID i /\ iSeq i' = iSeq i /\
    exists d, utc_time now d /\ only (lit "DTSTAMP") (VDateTime d) ps' /\
      if is_recur k then iHasStamp i' = true /\ iStamp i' = d else iHasStamp i' = iHasStamp i /\ iStamp i' = iStamp i
  | CallModified now => i' = i /\ exists d, utc_time now d /\ only (lit "LAST-MODIFIED") (VDateTime d) ps'
  end.

(** The same UID and sequence number; for a recurring component the same stamp. *)
Definition ident_rel (D : dt -> dt -> Prop) (k : kind) (a b : ident) : Prop :=
  iUID a = iUID b /\ iSeq a = iSeq b /\
  (is_recur k = true -> iHasStamp a = iHasStamp b /\ (iHasStamp a = true -> D (iStamp a) (iStamp b))).
(** A new component with these properties has this UID, sequence number and stamp. *)
Definition ident_step (k : kind) (ps : props) (i : ident) : Prop := ident_rel eq k (ident_finalise k ps newIdent) i.

(** hexdigest: hexadecimal digits. *)
Definition digests (md5 : bytes -> bytes) : Prop := forall s, Forall (fun c => In c (lit "0123456789abcdef")) (md5 s).
(** The fields of a clock of these centuries. *)
Definition clock_ok (now : tm) : Prop :=
  0 <= tmYear now <= 9999 /\ 1 <= tmMon now <= 12 /\ 1 <= tmDay now <= 31 /\ 0 <= tmHour now <= 23 /\ 0 <= tmMin now <= 59 /\ 0 <= tmSec now <= 61.
Definition call_writable (x : ident_call) : Prop :=
  match x with CallUID _ u => utf8 u | CallSeq _ => True | CallStamp now | CallModified now => clock_ok now end.

(** The UIDs that calls of setUID with the empty text make, one after the other, the counter being [ctr] at first. *)
Fixpoint made_uids (md5 : bytes -> bytes) (l : list (moment * identified)) (ctr : Z) : list bytes :=
  match l with
  | [] => []
  | (m, (ps, i, _)) :: r => let '(_, i', ctr') := set_uid md5 m [] (ps, i, ctr) in iUID i' :: made_uids md5 r ctr'
  end.
(** The texts whose digests are the left sides of these UIDs. *)
Fixpoint hashed (l : list (moment * identified)) (ctr : Z) : list bytes :=
  match l with
  | [] => []
  | (m, _) :: r => (clock_text m ++ lit "." ++ pystr (pid m) ++ lit "." ++ pystr ctr) :: hashed r (ctr + 1)
  end.
