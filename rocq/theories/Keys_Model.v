(** The keys of a test session: endpoint.c 3809-3870 (_OWPEndpointInitHook). *)
From Coq Require Import ZArith List Bool.
From Verif Require Import Base Wire_Model Control_Model Aes_Model.
Import ListNotations.
Open Scope Z_scope.

(** the fields ep->aesbytes, ep->aeskey.rk, ep->aes_tw_reply_key.rk (left as it was for one-way
    sessions: None) and ep->hmac_key *)
Record tkeys := mkTK { tk_bytes : list Z; tk_aes : list Z; tk_reply : option (list Z); tk_hmac : list Z }.

(** the two roles a schedule can be made for *)
Definition for_encryption (k : list Z) : list Z := rijndaelKeySetupEnc k.
Definition for_decryption (k : list Z) : list Z := rijndaelKeySetupDec k.

(** endpoint.c 3813-3870: [mode], [twoway] and [server] of the control connection, [send] of the
    endpoint, the session's SID, the connection's aessession_key and hmac_key; None: no ciphering.
    The 32-octet HMAC key is two blocks of CBC with a zero chaining value (endpoint.c 3863-3865). *)
Definition test_keys (mode : Z) (twoway server send : bool) (sid ckey hkey : list Z) : option tkeys :=
  if negb (Z.land mode (Z.lor MODE_AUTH MODE_ENCR) =? 0) then
    let sidkey := rijndaelKeySetupEnc sid in
    let bytes := rijndaelEncrypt sidkey ckey in
    let hm := fst (cbc_enc (fun _ b => rijndaelEncrypt sidkey b) sid (zeros 16) 2 hkey) in
    Some (if twoway then
            if server then mkTK bytes (for_decryption bytes) (Some (for_encryption bytes)) hm
            else mkTK bytes (for_encryption bytes) (Some (for_decryption bytes)) hm
          else if send then mkTK bytes (for_encryption bytes) None hm
          else mkTK bytes (for_decryption bytes) None hm)
  else None.
