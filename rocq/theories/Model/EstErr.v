(** Library error codes: /repo/src/est/est.h:83-177 FOREACH_EST_ERROR, preceded by
    EST_ERR_NONE = 0 (est.h:286).  Same order and numbers as the C enum. *)
From Coq Require Import ZArith List.
Import ListNotations.
Open Scope Z_scope.

Inductive est_error : Set :=
| EST_ERR_NONE
| EST_ERR_NO_CTX
| EST_ERR_NO_CSR
| EST_ERR_NO_CERT
| EST_ERR_NO_KEY
| EST_ERR_INVALID_PARAMETERS
| EST_ERR_LOAD_CACERTS
| EST_ERR_LOAD_TRUST_CERTS
| EST_ERR_BAD_MODE
| EST_ERR_BAD_PKCS10
| EST_ERR_HTTP_WRITE
| EST_ERR_HTTP_UNSUPPORTED
| EST_ERR_HTTP_CANNOT_BUILD_HEADER
| EST_ERR_HTTP_BAD_REQ
| EST_ERR_HTTP_NOT_FOUND
| EST_ERR_HTTP_NO_CONTENT
| EST_ERR_HTTP_LOCKED
| EST_ERR_HTTP_INVALID_PATH_SEGMENT
| EST_ERR_HTTP_PATH_SEGMENT_NOT_SUPPORTED
| EST_ERR_BAD_CONTENT_TYPE
| EST_ERR_BAD_CONTENT_LEN
| EST_ERR_NO_SSL_CTX
| EST_ERR_AUTH_FAIL
| EST_ERR_AUTH_FAIL_TLSUID
| EST_ERR_AUTH_PENDING
| EST_ERR_CA_ENROLL_FAIL
| EST_ERR_CA_ENROLL_RETRY
| EST_ERR_WRONG_METHOD
| EST_ERR_X509_SIGN
| EST_ERR_X509_VER
| EST_ERR_X509_CN
| EST_ERR_X509_ATTR
| EST_ERR_X509_PUBKEY
| EST_ERR_MALLOC
| EST_ERR_SSL_WRITE
| EST_ERR_SSL_READ
| EST_ERR_SSL_NEW
| EST_ERR_SSL_CTX_NEW
| EST_ERR_SSL_CONNECT
| EST_ERR_SSL_CIPHER_LIST
| EST_ERR_PEM_READ
| EST_ERR_NULL_CALLBACK
| EST_ERR_IP_GETADDR
| EST_ERR_IP_CONNECT
| EST_ERR_INVALID_SERVER_NAME
| EST_ERR_INVALID_PORT_NUM
| EST_ERR_CLIENT_INVALID_KEY
| EST_ERR_CLIENT_NOT_INITIALIZED
| EST_ERR_ZERO_LENGTH_BUF
| EST_ERR_READ_BUFFER_TOO_SMALL
| EST_ERR_BUF_EXCEEDS_MAX_LEN
| EST_ERR_NO_CERTIFICATE
| EST_ERR_NO_CERTS_FOUND
| EST_ERR_FQDN_MISMATCH
| EST_ERR_SYSCALL
| EST_ERR_ALREADY_ENABLED
| EST_ERR_ALREADY_DISABLED
| EST_ERR_CSR_ALREADY_SIGNED
| EST_ERR_CSR_ATTR_MISSING
| EST_ERR_INVALID_DIGEST
| EST_ERR_CACERT_VERIFICATION
| EST_ERR_INVALID_TOKEN
| EST_ERR_INVALID_RETRY_VALUE
| EST_ERR_BAD_X509
| EST_ERR_BAD_BASE64
| EST_ERR_BAD_ASN1_HEX
| EST_ERR_BAD_ASN1_HEX_TOO_SHORT
| EST_ERR_BAD_ASN1_HEX_TOO_LONG
| EST_ERR_SRP_STRENGTH_LOW
| EST_ERR_SRP_USERID_BAD
| EST_ERR_SRP_PWD_BAD
| EST_ERR_CB_FAILED
| EST_ERR_CLIENT_PROXY_MODE_NOT_SUPPORTED
| EST_ERR_INVALID_CLIENT_PROXY_PROTOCOL
| EST_ERR_INVALID_CLIENT_PROXY_AUTH
| EST_ERR_CLIENT_BRSKI_MODE_NOT_SUPPORTED
| EST_ERR_CLIENT_COAP_MODE_NOT_SUPPORTED
| EST_ERR_CLIENT_BRSKI_NO_VOUCHER
| EST_ERR_CLIENT_BRSKI_NONCE_MISSING
| EST_ERR_CLIENT_BRSKI_NONCE_MISMATCH
| EST_ERR_CLIENT_BRSKI_NONCE_TOO_LARGE
| EST_ERR_CLIENT_BRSKI_SERIAL_NUM_MISSING
| EST_ERR_CLIENT_BRSKI_SERIAL_NUM_MISMATCH
| EST_ERR_CLIENT_BRSKI_SERIAL_NUM_TOO_LARGE
| EST_ERR_CLIENT_BRSKI_VOUCHER_VERIFY_FAILED
| EST_ERR_BAD_KEY
| EST_ERR_MULTIPART_PARSE
| EST_ERR_ENC_PRIV_KEY_CMS
| EST_ERR_CMS_TYPE_CONVERSION
| EST_ERR_EXPORT_KEY_MATERIAL
| EST_ERR_VALIDATION
| EST_ERR_COAP_INIT_FAIL
| EST_ERR_COAP_PROCESSING_ERROR
| EST_ERR_SERVER_ALREADY_OPERATIONAL
| EST_ERR_UNKNOWN.

(** The C value of each enumerator. *)
Definition err_code (e : est_error) : Z :=
  match e with
  | EST_ERR_NONE => 0
  | EST_ERR_NO_CTX => 1
  | EST_ERR_NO_CSR => 2
  | EST_ERR_NO_CERT => 3
  | EST_ERR_NO_KEY => 4
  | EST_ERR_INVALID_PARAMETERS => 5
  | EST_ERR_LOAD_CACERTS => 6
  | EST_ERR_LOAD_TRUST_CERTS => 7
  | EST_ERR_BAD_MODE => 8
  | EST_ERR_BAD_PKCS10 => 9
  | EST_ERR_HTTP_WRITE => 10
  | EST_ERR_HTTP_UNSUPPORTED => 11
  | EST_ERR_HTTP_CANNOT_BUILD_HEADER => 12
  | EST_ERR_HTTP_BAD_REQ => 13
  | EST_ERR_HTTP_NOT_FOUND => 14
  | EST_ERR_HTTP_NO_CONTENT => 15
  | EST_ERR_HTTP_LOCKED => 16
  | EST_ERR_HTTP_INVALID_PATH_SEGMENT => 17
  | EST_ERR_HTTP_PATH_SEGMENT_NOT_SUPPORTED => 18
  | EST_ERR_BAD_CONTENT_TYPE => 19
  | EST_ERR_BAD_CONTENT_LEN => 20
  | EST_ERR_NO_SSL_CTX => 21
  | EST_ERR_AUTH_FAIL => 22
  | EST_ERR_AUTH_FAIL_TLSUID => 23
  | EST_ERR_AUTH_PENDING => 24
  | EST_ERR_CA_ENROLL_FAIL => 25
  | EST_ERR_CA_ENROLL_RETRY => 26
  | EST_ERR_WRONG_METHOD => 27
  | EST_ERR_X509_SIGN => 28
  | EST_ERR_X509_VER => 29
  | EST_ERR_X509_CN => 30
  | EST_ERR_X509_ATTR => 31
  | EST_ERR_X509_PUBKEY => 32
  | EST_ERR_MALLOC => 33
  | EST_ERR_SSL_WRITE => 34
  | EST_ERR_SSL_READ => 35
  | EST_ERR_SSL_NEW => 36
  | EST_ERR_SSL_CTX_NEW => 37
  | EST_ERR_SSL_CONNECT => 38
  | EST_ERR_SSL_CIPHER_LIST => 39
  | EST_ERR_PEM_READ => 40
  | EST_ERR_NULL_CALLBACK => 41
  | EST_ERR_IP_GETADDR => 42
  | EST_ERR_IP_CONNECT => 43
  | EST_ERR_INVALID_SERVER_NAME => 44
  | EST_ERR_INVALID_PORT_NUM => 45
  | EST_ERR_CLIENT_INVALID_KEY => 46
  | EST_ERR_CLIENT_NOT_INITIALIZED => 47
  | EST_ERR_ZERO_LENGTH_BUF => 48
  | EST_ERR_READ_BUFFER_TOO_SMALL => 49
  | EST_ERR_BUF_EXCEEDS_MAX_LEN => 50
  | EST_ERR_NO_CERTIFICATE => 51
  | EST_ERR_NO_CERTS_FOUND => 52
  | EST_ERR_FQDN_MISMATCH => 53
  | EST_ERR_SYSCALL => 54
  | EST_ERR_ALREADY_ENABLED => 55
  | EST_ERR_ALREADY_DISABLED => 56
  | EST_ERR_CSR_ALREADY_SIGNED => 57
  | EST_ERR_CSR_ATTR_MISSING => 58
  | EST_ERR_INVALID_DIGEST => 59
  | EST_ERR_CACERT_VERIFICATION => 60
  | EST_ERR_INVALID_TOKEN => 61
  | EST_ERR_INVALID_RETRY_VALUE => 62
  | EST_ERR_BAD_X509 => 63
  | EST_ERR_BAD_BASE64 => 64
  | EST_ERR_BAD_ASN1_HEX => 65
  | EST_ERR_BAD_ASN1_HEX_TOO_SHORT => 66
  | EST_ERR_BAD_ASN1_HEX_TOO_LONG => 67
  | EST_ERR_SRP_STRENGTH_LOW => 68
  | EST_ERR_SRP_USERID_BAD => 69
  | EST_ERR_SRP_PWD_BAD => 70
  | EST_ERR_CB_FAILED => 71
  | EST_ERR_CLIENT_PROXY_MODE_NOT_SUPPORTED => 72
  | EST_ERR_INVALID_CLIENT_PROXY_PROTOCOL => 73
  | EST_ERR_INVALID_CLIENT_PROXY_AUTH => 74
  | EST_ERR_CLIENT_BRSKI_MODE_NOT_SUPPORTED => 75
  | EST_ERR_CLIENT_COAP_MODE_NOT_SUPPORTED => 76
  | EST_ERR_CLIENT_BRSKI_NO_VOUCHER => 77
  | EST_ERR_CLIENT_BRSKI_NONCE_MISSING => 78
  | EST_ERR_CLIENT_BRSKI_NONCE_MISMATCH => 79
  | EST_ERR_CLIENT_BRSKI_NONCE_TOO_LARGE => 80
  | EST_ERR_CLIENT_BRSKI_SERIAL_NUM_MISSING => 81
  | EST_ERR_CLIENT_BRSKI_SERIAL_NUM_MISMATCH => 82
  | EST_ERR_CLIENT_BRSKI_SERIAL_NUM_TOO_LARGE => 83
  | EST_ERR_CLIENT_BRSKI_VOUCHER_VERIFY_FAILED => 84
  | EST_ERR_BAD_KEY => 85
  | EST_ERR_MULTIPART_PARSE => 86
  | EST_ERR_ENC_PRIV_KEY_CMS => 87
  | EST_ERR_CMS_TYPE_CONVERSION => 88
  | EST_ERR_EXPORT_KEY_MATERIAL => 89
  | EST_ERR_VALIDATION => 90
  | EST_ERR_COAP_INIT_FAIL => 91
  | EST_ERR_COAP_PROCESSING_ERROR => 92
  | EST_ERR_SERVER_ALREADY_OPERATIONAL => 93
  | EST_ERR_UNKNOWN => 94
  end.
Definition all_errors : list est_error :=
  [EST_ERR_NONE;
   EST_ERR_NO_CTX;
   EST_ERR_NO_CSR;
   EST_ERR_NO_CERT;
   EST_ERR_NO_KEY;
   EST_ERR_INVALID_PARAMETERS;
   EST_ERR_LOAD_CACERTS;
   EST_ERR_LOAD_TRUST_CERTS;
   EST_ERR_BAD_MODE;
   EST_ERR_BAD_PKCS10;
   EST_ERR_HTTP_WRITE;
   EST_ERR_HTTP_UNSUPPORTED;
   EST_ERR_HTTP_CANNOT_BUILD_HEADER;
   EST_ERR_HTTP_BAD_REQ;
   EST_ERR_HTTP_NOT_FOUND;
   EST_ERR_HTTP_NO_CONTENT;
   EST_ERR_HTTP_LOCKED;
   EST_ERR_HTTP_INVALID_PATH_SEGMENT;
   EST_ERR_HTTP_PATH_SEGMENT_NOT_SUPPORTED;
   EST_ERR_BAD_CONTENT_TYPE;
   EST_ERR_BAD_CONTENT_LEN;
   EST_ERR_NO_SSL_CTX;
   EST_ERR_AUTH_FAIL;
   EST_ERR_AUTH_FAIL_TLSUID;
   EST_ERR_AUTH_PENDING;
   EST_ERR_CA_ENROLL_FAIL;
   EST_ERR_CA_ENROLL_RETRY;
   EST_ERR_WRONG_METHOD;
   EST_ERR_X509_SIGN;
   EST_ERR_X509_VER;
   EST_ERR_X509_CN;
   EST_ERR_X509_ATTR;
   EST_ERR_X509_PUBKEY;
   EST_ERR_MALLOC;
   EST_ERR_SSL_WRITE;
   EST_ERR_SSL_READ;
   EST_ERR_SSL_NEW;
   EST_ERR_SSL_CTX_NEW;
   EST_ERR_SSL_CONNECT;
   EST_ERR_SSL_CIPHER_LIST;
   EST_ERR_PEM_READ;
   EST_ERR_NULL_CALLBACK;
   EST_ERR_IP_GETADDR;
   EST_ERR_IP_CONNECT;
   EST_ERR_INVALID_SERVER_NAME;
   EST_ERR_INVALID_PORT_NUM;
   EST_ERR_CLIENT_INVALID_KEY;
   EST_ERR_CLIENT_NOT_INITIALIZED;
   EST_ERR_ZERO_LENGTH_BUF;
   EST_ERR_READ_BUFFER_TOO_SMALL;
   EST_ERR_BUF_EXCEEDS_MAX_LEN;
   EST_ERR_NO_CERTIFICATE;
   EST_ERR_NO_CERTS_FOUND;
   EST_ERR_FQDN_MISMATCH;
   EST_ERR_SYSCALL;
   EST_ERR_ALREADY_ENABLED;
   EST_ERR_ALREADY_DISABLED;
   EST_ERR_CSR_ALREADY_SIGNED;
   EST_ERR_CSR_ATTR_MISSING;
   EST_ERR_INVALID_DIGEST;
   EST_ERR_CACERT_VERIFICATION;
   EST_ERR_INVALID_TOKEN;
   EST_ERR_INVALID_RETRY_VALUE;
   EST_ERR_BAD_X509;
   EST_ERR_BAD_BASE64;
   EST_ERR_BAD_ASN1_HEX;
   EST_ERR_BAD_ASN1_HEX_TOO_SHORT;
   EST_ERR_BAD_ASN1_HEX_TOO_LONG;
   EST_ERR_SRP_STRENGTH_LOW;
   EST_ERR_SRP_USERID_BAD;
   EST_ERR_SRP_PWD_BAD;
   EST_ERR_CB_FAILED;
   EST_ERR_CLIENT_PROXY_MODE_NOT_SUPPORTED;
   EST_ERR_INVALID_CLIENT_PROXY_PROTOCOL;
   EST_ERR_INVALID_CLIENT_PROXY_AUTH;
   EST_ERR_CLIENT_BRSKI_MODE_NOT_SUPPORTED;
   EST_ERR_CLIENT_COAP_MODE_NOT_SUPPORTED;
   EST_ERR_CLIENT_BRSKI_NO_VOUCHER;
   EST_ERR_CLIENT_BRSKI_NONCE_MISSING;
   EST_ERR_CLIENT_BRSKI_NONCE_MISMATCH;
   EST_ERR_CLIENT_BRSKI_NONCE_TOO_LARGE;
   EST_ERR_CLIENT_BRSKI_SERIAL_NUM_MISSING;
   EST_ERR_CLIENT_BRSKI_SERIAL_NUM_MISMATCH;
   EST_ERR_CLIENT_BRSKI_SERIAL_NUM_TOO_LARGE;
   EST_ERR_CLIENT_BRSKI_VOUCHER_VERIFY_FAILED;
   EST_ERR_BAD_KEY;
   EST_ERR_MULTIPART_PARSE;
   EST_ERR_ENC_PRIV_KEY_CMS;
   EST_ERR_CMS_TYPE_CONVERSION;
   EST_ERR_EXPORT_KEY_MATERIAL;
   EST_ERR_VALIDATION;
   EST_ERR_COAP_INIT_FAIL;
   EST_ERR_COAP_PROCESSING_ERROR;
   EST_ERR_SERVER_ALREADY_OPERATIONAL;
   EST_ERR_UNKNOWN].
Definition err_eqb (a b : est_error) : bool := err_code a =? err_code b.
Definition is_none (a : est_error) : bool := match a with EST_ERR_NONE => true | _ => false end.
