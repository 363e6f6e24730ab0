(** Model of ui/keypair.c, ui/sign.c and ui/open.c (and the xmssmt variants, which are the
    same files compiled with -DXMSSMT).

    Files are byte lists; [None] is a file that cannot be opened.  A tool's run is modelled
    by its exit code and the list of stdio calls with a lasting effect.  stdio is buffered:
    [disk_step] lets the library move any prefix of a stream's pending data to the disk at
    any time, as the C standard allows, and forces the rest out at fclose / exit; a crash
    can leave any state reachable this way. *)
From Verif Require Import Base ModelUtils ModelParams ModelHash ModelCommons ModelCore ModelCoreFast ModelXmss.
From Coq Require Import String.

Section WithEnv.
Context {E : Env}.

(** fread of [k] bytes at [pos] into an uninitialised array of [k] bytes *)
Definition fread (f : bytes) (pos k : nat) : bytes :=
  let d := firstn k (skipn pos f) in d ++ skipn (List.length d) (uninit k).
(** the file position after such a read *)
Definition fpos_after (f : bytes) (pos k : nat) : nat := pos + List.length (firstn k (skipn pos f)).

Inductive act :=
| KeyWrite (pos : nat) (data : bytes)   (* fwrite to the key file at [pos] *)
| OutWrite (data : bytes)               (* fwrite to stdout *)
| KeyClose                              (* fclose of the key file *)
| ExitProc.                             (* return from main: all streams are flushed *)

Record ui_out := mkUi { ui_exit : Z; ui_acts : list act }.

Section Tools.
Variable mt : bool.          (* compiled with -DXMSSMT *)
Variable c : core.

Definition ui_str_to_oid := if mt then xmssmt_str_to_oid else xmss_str_to_oid.
Definition ui_parse_oid := if mt then xmssmt_parse_oid else xmss_parse_oid.
Definition ui_keypair_fn := if mt then xmssmt_keypair c else xmss_keypair c.
Definition ui_sign_fn := if mt then xmssmt_sign c else xmss_sign c.
Definition ui_open_fn := if mt then xmssmt_sign_open c else xmss_sign_open c.

(** ui/keypair.c:17-48; [arg] is argv[1], [None] when argc <> 2.  The result of
    XMSS_STR_TO_OID is ignored: an unknown name leaves oid = 0.  The return code of
    XMSS_KEYPAIR is ignored. *)
Definition ui_keypair (arg : option string) (r : nat -> N) : res ui_out :=
  match arg with
  | None => Ok (mkUi (-1) [ExitProc])
  | Some s =>
      let oid := match ui_str_to_oid s with Some o => o | None => 0%N end in
      let* op := ui_parse_oid (c_sk_bytes c) uninit_params oid in
      match op with
      | None => Ok (mkUi (-1) [ExitProc])
      | Some p =>
          let* (_, pk, sk) := ui_keypair_fn (uninit (XMSS_OID_LEN + pk_bytes p))
                                (uninit (XMSS_OID_LEN + sk_bytes p)) oid r in
          Ok (mkUi 0 [OutWrite pk; OutWrite sk; ExitProc])
      end
  end.

(** ui/sign.c:17-102; [argc_ok] is argc = 3.  malloc is assumed to succeed. *)
Definition ui_sign (argc_ok : bool) (keyfile mfile : option bytes) : res ui_out :=
  if negb argc_ok then Ok (mkUi (-1) [ExitProc]) else
  match keyfile with
  | None => Ok (mkUi (-1) [ExitProc])
  | Some kf =>
  match mfile with
  | None => Ok (mkUi (-1) [KeyClose; ExitProc])
  | Some mf =>
      let mlen := List.length mf in
      let* oid_pk := bytes_to_ull (fread kf 0 XMSS_OID_LEN) in
      let pos := fpos_after kf 0 XMSS_OID_LEN in
      let* op := ui_parse_oid (c_sk_bytes c) uninit_params (u32 oid_pk) in
      match op with
      | None => Ok (mkUi (-1) [KeyClose; ExitProc])
      | Some p1 =>
          let pos := pos + pk_bytes p1 in
          let* oid_sk := bytes_to_ull (fread kf pos XMSS_OID_LEN) in
          let pos := fpos_after kf pos XMSS_OID_LEN in
          let* op := ui_parse_oid (c_sk_bytes c) p1 (u32 oid_sk) in
          match op with
          | None => Ok (mkUi (-1) [KeyClose; ExitProc])
          | Some p =>
              let pos := pos - XMSS_OID_LEN in
              let sk := fread kf pos (XMSS_OID_LEN + sk_bytes p) in
              let pos := fpos_after kf pos (XMSS_OID_LEN + sk_bytes p) in
              let* o := ui_sign_fn sk (uninit (sig_bytes p + mlen)) (N.to_nat (junk 0)) mf in
              (* XMSS_SIGN's return code is ignored *)
              let pos := (if sk_bytes p <=? pos then pos - sk_bytes p else pos) in  (* a failing fseek *)
              let* d := rd (so_sk o) XMSS_OID_LEN (sk_bytes p) in
              let* sm := rd (so_sm o) 0 (so_smlen o) in
              Ok (mkUi 0 [KeyWrite pos d; OutWrite sm; KeyClose; ExitProc])
          end
      end
  end end.

(** The two messages of ui/open.c:74-79 *)
Inductive verdict := NoVerdict | VerificationFailed | VerificationSucceeded.

(** ui/open.c:17-89 *)
Definition ui_open (argc_ok : bool) (keyfile smfile : option bytes) : res (Z * verdict) :=
  if negb argc_ok then Ok ((-1)%Z, NoVerdict) else
  match keyfile, smfile with
  | None, _ => Ok ((-1)%Z, NoVerdict)
  | Some _, None => Ok ((-1)%Z, NoVerdict)
  | Some kf, Some smf =>
      let* oid := bytes_to_ull (fread kf 0 XMSS_OID_LEN) in
      let* op := ui_parse_oid (c_sk_bytes c) uninit_params (u32 oid) in
      match op with
      | None => Ok ((-1)%Z, NoVerdict)
      | Some p =>
          let pk := fread kf 0 (XMSS_OID_LEN + pk_bytes p) in
          let* o := ui_open_fn (uninit (List.length smf)) (N.to_nat (junk 0)) smf pk in
          Ok (oo_rc o, if Z.eqb (oo_rc o) 0 then VerificationSucceeded else VerificationFailed)
      end
  end.
End Tools.
End WithEnv.

(** ** The stdio layer *)
(** what is on disk / has left the process, what is still buffered, the calls to come *)
Record disk := mkDisk {
  d_key : bytes;                     (* contents of the key file *)
  d_keybuf : list (nat * N);         (* pending writes to it: position, byte *)
  d_out : bytes;                     (* bytes that have left through stdout *)
  d_outbuf : bytes;
  d_todo : list act }.

(** write one byte at a position, extending the file with zeros if needed *)
Definition put (f : bytes) (pos : nat) (b : N) : bytes :=
  if pos <? List.length f then upd f pos b
  else f ++ repeat 0%N (pos - List.length f) ++ [b].
Definition put_all (f : bytes) (l : list (nat * N)) : bytes :=
  fold_left (fun f q => put f (fst q) (snd q)) l f.
Definition positions (pos : nat) (data : bytes) : list (nat * N) :=
  combine (seq pos (List.length data)) data.

Inductive disk_step : disk -> disk -> Prop :=
| ds_flush_key : forall k a b o ob t,
    disk_step (mkDisk k (a ++ b) o ob t) (mkDisk (put_all k a) b o ob t)
| ds_flush_out : forall k kb o a b t,
    disk_step (mkDisk k kb o (a ++ b) t) (mkDisk k kb (o ++ a) b t)
| ds_keywrite : forall k kb o ob pos data t,
    disk_step (mkDisk k kb o ob (KeyWrite pos data :: t)) (mkDisk k (kb ++ positions pos data) o ob t)
| ds_outwrite : forall k kb o ob data t,
    disk_step (mkDisk k kb o ob (OutWrite data :: t)) (mkDisk k kb o (ob ++ data) t)
| ds_keyclose : forall k kb o ob t,
    disk_step (mkDisk k kb o ob (KeyClose :: t)) (mkDisk (put_all k kb) [] o ob t)
| ds_exit : forall k kb o ob t,
    disk_step (mkDisk k kb o ob (ExitProc :: t)) (mkDisk (put_all k kb) [] (o ++ ob) [] t).

Inductive disk_reach (d0 : disk) : disk -> Prop :=
| dr_refl : disk_reach d0 d0
| dr_step : forall d1 d2, disk_reach d0 d1 -> disk_step d1 d2 -> disk_reach d0 d2.
