(* http/status: status codes, reason phrases, preformatted status lines, and the
   errors used across the code base. *)
From Verif Require Import M_Base.

(* http/status/codes.go:9-12  Code = uint16.  We use N; all theorems about codes hold for
   every N, in particular for every uint16. *)
Definition code := N.

(* http/status/codes.go:89-218  func Text *)
Definition status_text (c : code) : bytes :=
  match c with
  | 100%N => B "Continue"
  | 101%N => B "Switching Protocols"
  | 102%N => B "Processing"
  | 103%N => B "Early Hints"
  | 200%N => B "OK"
  | 201%N => B "Created"
  | 202%N => B "Accepted"
  | 203%N => B "Non-Authoritative Information"
  | 204%N => B "No Content"
  | 205%N => B "Reset Content"
  | 206%N => B "Partial Content"
  | 207%N => B "Multi-Status"
  | 208%N => B "Already Reported"
  | 226%N => B "IM Used"
  | 300%N => B "Multiple Choices"
  | 301%N => B "Moved Permanently"
  | 302%N => B "Found"
  | 303%N => B "See Other"
  | 304%N => B "Not Modified"
  | 305%N => B "Use Proxy"
  | 307%N => B "Temporary Redirect"
  | 308%N => B "Permanent Redirect"
  | 400%N => B "Bad Request"
  | 401%N => B "Unauthorized"
  | 402%N => B "Payment Required"
  | 403%N => B "Forbidden"
  | 404%N => B "Not Found"
  | 405%N => B "Method Not Allowed"
  | 406%N => B "Not Acceptable"
  | 407%N => B "Proxy Authentication Required"
  | 408%N => B "Request Timeout"
  | 409%N => B "Conflict"
  | 410%N => B "Gone"
  | 411%N => B "Length Required"
  | 412%N => B "Precondition Failed"
  | 413%N => B "Request Entity Too Large"
  | 414%N => B "Request URI Too Long"
  | 415%N => B "Unsupported Media Type"
  | 416%N => B "Requested Range Not Satisfiable"
  | 417%N => B "Expectation Failed"
  | 418%N => B "I'm a teapot"
  | 421%N => B "Misdirected Request"
  | 422%N => B "Unprocessable Entity"
  | 423%N => B "Locked"
  | 424%N => B "Failed Dependency"
  | 425%N => B "Too Early"
  | 426%N => B "Upgrade Required"
  | 428%N => B "Precondition Required"
  | 429%N => B "Too Many Requests"
  | 431%N => B "Request Header Fields Too Large"
  | 451%N => B "Unavailable For Legal Reasons"
  | 500%N => B "Internal Server Error"
  | 501%N => B "Not Implemented"
  | 502%N => B "Bad Gateway"
  | 503%N => B "Service Unavailable"
  | 504%N => B "Gateway Timeout"
  | 505%N => B "HTTP Version Not Supported"
  | 506%N => B "Variant Also Negotiates"
  | 507%N => B "Insufficient Storage"
  | 508%N => B "Loop Detected"
  | 510%N => B "Not Extended"
  | 511%N => B "Network Authentication Required"
  | _ => B "Unknown Status Code"
  end.

(* http/status/codes.go:222-351  func Line (the result includes the trailing CRLF) *)
Definition status_line (c : code) : bytes :=
  match c with
  | 100%N => B "100 Continue" ++ CRLF
  | 101%N => B "101 Switching Protocol" ++ CRLF
  | 102%N => B "102 Processing" ++ CRLF
  | 103%N => B "103 Early Hints" ++ CRLF
  | 200%N => B "200 OK" ++ CRLF
  | 201%N => B "201 Created" ++ CRLF
  | 202%N => B "202 Accepted" ++ CRLF
  | 203%N => B "203 Non-Authoritative Information" ++ CRLF
  | 204%N => B "204 No Content" ++ CRLF
  | 205%N => B "205 Reset Content" ++ CRLF
  | 206%N => B "206 Partial Content" ++ CRLF
  | 207%N => B "207 Multi-Status" ++ CRLF
  | 208%N => B "208 Already Reported" ++ CRLF
  | 226%N => B "226 IM Used" ++ CRLF
  | 300%N => B "300 Multiple Choices" ++ CRLF
  | 301%N => B "301 Moved Permanently" ++ CRLF
  | 302%N => B "302 Found" ++ CRLF
  | 303%N => B "303 See Other" ++ CRLF
  | 304%N => B "304 Not Modified" ++ CRLF
  | 305%N => B "305 Use Proxy" ++ CRLF
  | 307%N => B "307 Temporary Redirect" ++ CRLF
  | 308%N => B "308 Permanent Redirect" ++ CRLF
  | 400%N => B "400 Bad Request" ++ CRLF
  | 401%N => B "401 Unauthorized" ++ CRLF
  | 402%N => B "402 Payment Required" ++ CRLF
  | 403%N => B "403 Forbidden" ++ CRLF
  | 404%N => B "404 Not Found" ++ CRLF
  | 405%N => B "405 Method Not Allowed" ++ CRLF
  | 406%N => B "406 Not Acceptable" ++ CRLF
  | 407%N => B "407 Proxy Authentication Required" ++ CRLF
  | 408%N => B "408 Request Timeout" ++ CRLF
  | 409%N => B "409 Conflict" ++ CRLF
  | 410%N => B "410 Gone" ++ CRLF
  | 411%N => B "411 Length Required" ++ CRLF
  | 412%N => B "412 Precondition Failed" ++ CRLF
  | 413%N => B "413 Request Entity Too Large" ++ CRLF
  | 414%N => B "414 Request URI Too Long" ++ CRLF
  | 415%N => B "415 Unsupported Media Type" ++ CRLF
  | 416%N => B "416 Requested Range Not Satisfiable" ++ CRLF
  | 417%N => B "417 Expectation Failed" ++ CRLF
  | 418%N => B "418 I'm a teapot" ++ CRLF
  | 421%N => B "421 Misdirected Request" ++ CRLF
  | 422%N => B "422 Unprocessable Entity" ++ CRLF
  | 423%N => B "423 Locked" ++ CRLF
  | 424%N => B "424 Failed Dependency" ++ CRLF
  | 425%N => B "425 Too Early" ++ CRLF
  | 426%N => B "426 Upgrade Required" ++ CRLF
  | 428%N => B "428 Precondition Required" ++ CRLF
  | 429%N => B "429 Too Many Requests" ++ CRLF
  | 431%N => B "431 Request Header Fields Too Large" ++ CRLF
  | 451%N => B "451 Unavailable For Legal Reasons" ++ CRLF
  | 500%N => B "500 Internal Server Error" ++ CRLF
  | 501%N => B "501 Not Implemented" ++ CRLF
  | 502%N => B "502 Bad Gateway" ++ CRLF
  | 503%N => B "503 Service Unavailable" ++ CRLF
  | 504%N => B "504 Gateway Timeout" ++ CRLF
  | 505%N => B "505 HTTP Version Not Supported" ++ CRLF
  | 506%N => B "506 Variant Also Negotiates" ++ CRLF
  | 507%N => B "507 Insufficient Storage" ++ CRLF
  | 508%N => B "508 Loop Detected" ++ CRLF
  | 510%N => B "510 Not Extended" ++ CRLF
  | 511%N => B "511 Network Authentication Required" ++ CRLF
  | _ => []
  end.

(* http/status/errors.go:3-17  HTTPError *)
Record http_error := HTTPError { he_code : code; he_msg : bytes }.

(* http/status/errors.go:19-78, the errors the modelled code uses *)
Definition ErrCloseConnection := HTTPError 439%N (B "internal error as a signal").
Definition ErrShutdown := HTTPError 439%N (B "shutdown").
Definition ErrGracefulShutdown := HTTPError 439%N (B "graceful shutdown").
Definition ErrBadRequest := HTTPError 400%N (B "bad request").
Definition ErrTooLongRequestLine := HTTPError 400%N (B "request line is too long").
Definition ErrURIDecoding := HTTPError 400%N (B "invalid URI encoding").
Definition ErrBadQuery := HTTPError 400%N (B "bad URL query").
Definition ErrNotFound := HTTPError 404%N (B "not found").
Definition ErrInternalServerError := HTTPError 500%N (B "internal server error").
Definition ErrMethodNotImplemented := HTTPError 501%N (B "request method is not supported").
Definition ErrMethodNotAllowed := HTTPError 405%N (B "method not allowed").
Definition ErrBodyTooLarge := HTTPError 413%N (B "request body is too large").
Definition ErrHeaderFieldsTooLarge := HTTPError 431%N (B "too large headers section").
Definition ErrTooManyHeaders := HTTPError 431%N (B "too many headers").
Definition ErrURITooLong := HTTPError 414%N (B "request URI too long").
Definition ErrUnsupportedProtocol := HTTPError 505%N (B "protocol is not supported").
Definition ErrUnsupportedMediaType := HTTPError 415%N (B "unsupported media type").
Definition ErrUnsupportedEncoding := HTTPError 415%N (B "content encoding is not supported").
Definition ErrMisdirectedRequest := HTTPError 421%N (B "misdirected request").

(* Go's error interface as used here: an HTTPError, io.EOF, or anything else. *)
Inductive goerr :=
| EHttp (e : http_error)
| EEOF
| EOther (msg : bytes).
