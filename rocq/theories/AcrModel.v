(** Attribute certificates, from a client's call to the verdict:
    src/wh_client_cert.c 1357-1532, src/wh_server_cert.c 838-878 and 1451-1570,
    src/wh_message_cert.c 184-198 and 234-244, wolfhsm/wh_message_cert.h 210-218
    and 288-293, for a client and a server of any byte order.

    wolfCrypt is not part of /repo: its parser and its check of an attribute
    certificate are parameters.  Left out: NULL arguments other than out_rc, the
    loops that repeat a call while it says NOTREADY (a link says how they end), the
    group and action of a reply (C17), authorization (C33).  A mapping is its code
    and the address it gives, in a memory that stands still; that it is released is
    C74. *)
From Verif Require Import Base NvmSpec Store EndianModel KdfModel KsReq EndianProof NvcModel CertModel CecModel CedModel.

(** wh_Client_CertVerifyAcert (1413) with the certificate in the packet and
    wh_Client_CertVerifyAcertDma (1510) with its length and its address. *)
Inductive acall :=
| APkt (cert : list N) (root : N)
| AMem (len root : N).

Section Acr.
Variable DL : nat.               (* WOLFHSM_CFG_COMM_DATA_LEN *)
Variable max_cert : nat.         (* WOLFHSM_CFG_MAX_CERT_SIZE *)
Variable Key : Type.
(** wc_ParseCert: its code and the public key it stored, if any. *)
Variable parse : list N -> Z * option Key.
(** wc_VerifyX509Acert. *)
Variable check : list N -> Key -> Z.
(** ASN_SIG_CONFIRM_E or ASN_SIG_OID_E. *)
Variable sig_bad : Z -> bool.

(** wh_Server_CertVerifyAcert: wh_server_cert.c 840-878. *)
Definition acert (st : store) (cert : list N) (root : N) : Z :=
  let '(rc, r) := cert_read max_cert st root max_cert in
  if negb (is_ok rc) then rc else
  let '(rc, k) := parse r in
  if negb (is_ok rc) then rc else
  match k with None => ABORTED | Some k => check cert k end.
(** 1493-1499, 1545-1551. *)
Definition told_code (rc : Z) : Z := if sig_bad rc then CERT_VERIFY else rc.

Section Peers.
Variables sb cb : bool.          (* big endian: server, client *)

(** wh_server_cert.c 1452-1570; [mem] is the memory shared with the client.  The
    functions behind it only read. *)
Definition aserve (L : dlink) (mem : list N) (st : store) (a : N) (n : nat) (buf : list N) : list N :=
  if N.eqb a 38 then
    if n <? 8 then simple sb cb ABORTED buf else
    let v := take sb cb [4; 2] buf in
    if (N.of_nat (n - 8) <? fld 0 v)%N then simple sb cb BADARGS buf else
    simple sb cb (told_code (if is_ok (dl_lock L) then acert st (rd 8 (N.to_nat (fld 0 v)) buf) (fld 1 v) else dl_lock L)) buf
  else if N.eqb a 39 then
    if negb (n =? 24) then simple sb cb ABORTED buf else
    let v := take sb cb [8; 4; 2; 2; 2; 2] buf in
    if negb (is_ok (dl_dma L)) then simple sb cb (dl_dma L) buf else
    simple sb cb (told_code (if is_ok (dl_lock L) then acert st (rd (N.to_nat (fld 0 v)) (N.to_nat (fld 1 v)) mem) (fld 2 v) else dl_lock L)) buf
  else [].

(** 1367-1371 and 1419-1421; 1516-1518. *)
Definition achecked (want : bool) (c : acall) : bool :=
  match c with
  | APkt cert root => want && negb (N.eqb root 0) && negb (length cert =? 0) && negb (DL - 8 <? length cert)
  | AMem _ _ => want
  end.
(** 1373-1381, 1459-1464. *)
Definition apacket (addr : N) (c : acall) : N * list N :=
  match c with
  | APkt cert root => (38%N, wire cb [(4, N.of_nat (length cert)); (2, root)] ++ repeat 0%N 2 ++ cert)
  | AMem len root => (39%N, wire cb [(8, addr); (4, len); (2, root); (2, 0%N); (2, 0%N); (2, 0%N)] ++ repeat 0%N 4)
  end.
(** A blocking call: 1413-1435, 1510-1532.  The code of unmapping is dropped. *)
Definition acert_call (want : bool) (c : acall) (L : dlink) (mem : list N) (st : store) : cout :=
  if negb (achecked want c) then failed BADARGS else
  if (match c with AMem _ _ => negb (is_ok (dl_pre L)) | APkt _ _ => false end) then failed (dl_pre L) else
  if negb (is_ok (dl_send L)) then failed (dl_send L) else
  let '(a, p) := apacket (dl_addr L) c in
  let r := aserve L mem st a (length p) (p ++ skipn (length p) (dl_buf L)) in
  if negb (is_ok (dl_recv L)) then failed (dl_recv L) else got_simple cb want r.
End Peers.
End Acr.
