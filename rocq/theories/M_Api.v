(** The API: every call the TA dispatcher can make (taimpl/src/internal/ta.c:1906-2140), as
    a program.  [slot] and [u] are the client handle and the caller, passed to each.
    Not included: sa_get_version, sa_get_name, sa_get_device_id, sa_get_ta_uuid,
    sa_svp_supported (constants, no state). *)
From Verif Require Import Base M_ObjectStore M_Rights M_Svp M_Prog M_ApiKey M_ApiCipher M_ApiMac M_ApiSvp.

Inductive call :=
| KInit | KClose
| KRandom (out_ok : bool)
| KKeyGenerate (r : option rights) (g : gen_params)
| KKeyImport (ip : import_params) (input : option (list Z)) (md : made)
| KKeyUnwrap (r : option rights) (key_type : Z) (curve : option Z) (alg : unwrap_alg) (wrapping : Z) (input : option (list Z))
| KKeyDerive (r : option rights) (alg : option derive_alg)
| KKeyExchange (r : option rights) (alg : exchange_alg) (private : Z) (other_public : bool)
| KKeyExport (mixin out : option Z) (key : Z) (required : stored_key -> Z)
| KKeyHeader (key : Z) | KKeyDigest (key : Z) | KKeyRelease (key : Z) | KKeyPublic (key : Z)
| KSign (alg : sign_alg) (key : Z) (in_ok : bool) (digests : option (list Z)) (salt : Z) (out : option Z)
| KCipherInit (alg mode key : Z) (pstat vstat : status)
| KCipherProcess (out : option ubuf) (context : Z) (input : option ubuf) (n : Z)
| KCipherProcessLast (out : option ubuf) (context : Z) (input : option ubuf) (n : Z) (tag : option Z)
| KCipherUpdateIv (context : Z) (iv : option Z)
| KCipherRelease (context : Z)
| KCenc (samples : option (list csample))
| KMacInit (alg : Z) (digest : option Z) (key : Z)
| KMacProcess (context : Z) (in_ok : bool)
| KMacProcessKey (context key : Z)
| KMacCompute (context : Z) (out : option Z) (mac_length : Z)
| KMacRelease (context : Z)
| KSvpCreate (memory size : Z) | KSvpRelease (h : Z)
| KSvpWrite (h : Z) (in_ok offsets_ok : bool)
| KSvpCopy (out input : Z) (offsets_ok : bool)
| KSvpCheck (h offset length digest : Z) (hash : option Z)
| KSvpKeyCheck (key : Z) (input : option ubuf) (n : Z) (expected : option Z).

Definition api_m (k : call) (slot : Z) (u : uuid) : M unit :=
  match k with
  | KInit => sa_init u
  | KClose => sa_close slot u
  | KRandom out_ok => crypto_random out_ok
  | KKeyGenerate r g => key_generate r g slot u
  | KKeyImport ip input md => key_import ip input md slot u
  | KKeyUnwrap r kt curve alg w input => key_unwrap_api r kt curve alg w input slot u
  | KKeyDerive r alg => key_derive r alg slot u
  | KKeyExchange r alg private op => key_exchange r alg private op slot u
  | KKeyExport mixin out h required => key_export mixin out h required slot u
  | KKeyHeader h => key_header h slot u;; no_op
  | KKeyDigest h => key_digest h slot u
  | KKeyRelease h => key_release h slot u
  | KKeyPublic h => key_get_public h slot u
  | KSign alg h in_ok ds salt out => crypto_sign alg h in_ok ds salt out slot u
  | KCipherInit alg mode key ps vs => cipher_init alg mode key ps vs slot u
  | KCipherProcess out ctx input n => cipher_process out ctx input n slot u
  | KCipherProcessLast out ctx input n tag => cipher_process_last out ctx input n tag slot u
  | KCipherUpdateIv ctx iv => cipher_update_iv ctx iv slot u
  | KCipherRelease ctx => cipher_release ctx slot u
  | KCenc samples => process_common_encryption samples slot u
  | KMacInit alg d key => mac_init alg d key slot u
  | KMacProcess ctx in_ok => mac_process ctx in_ok slot u
  | KMacProcessKey ctx key => mac_process_key ctx key slot u
  | KMacCompute ctx out l => mac_compute ctx out l slot u
  | KMacRelease ctx => mac_release ctx slot u
  | KSvpCreate memory size => svp_buffer_create memory size slot u
  | KSvpRelease h => svp_buffer_release h slot u
  | KSvpWrite h a b => svp_buffer_write h a b slot u
  | KSvpCopy o i b => svp_buffer_copy o i b slot u
  | KSvpCheck h off len d hash => svp_buffer_check h off len d hash slot u
  | KSvpKeyCheck key input n e => svp_key_check key input n e slot u
  end.
Definition api (k : call) (slot : Z) (u : uuid) : prog status := api_fn (api_m k slot u).
