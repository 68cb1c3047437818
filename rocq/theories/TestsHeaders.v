(** Generated by tools/gen_tests_headers.py: the test cases of src/headers.rs, run on the model. *)
From Verif Require Import ModelHeaders.

Example test_headers_1 : h_headers SReq false [107; 49; 58; 118; 49; 13; 10; 107; 50; 58; 118; 50; 32; 98; 101; 102; 111; 114; 101; 0; 118; 50; 32; 97; 102; 116; 101; 114; 13; 10; 13; 10] = Some (POk [] ([(mk_ph (hf_new [107; 49] 0) (hf_new [118; 49] 0)); (mk_ph (hf_new [107; 50] 0) (hf_new [118; 50; 32; 98; 101; 102; 111; 114; 101; 0; 118; 50; 32; 97; 102; 116; 101; 114] 0))], true)).
Proof. vm_compute. reflexivity. Qed.
Example test_headers_2 : h_headers SResp false [107; 49; 58; 118; 49; 13; 10; 107; 50; 58; 118; 50; 32; 98; 101; 102; 111; 114; 101; 0; 118; 50; 32; 97; 102; 116; 101; 114; 13; 10; 13; 10] = Some (POk [] ([(mk_ph (hf_new [107; 49] 0) (hf_new [118; 49] 0)); (mk_ph (hf_new [107; 50] 0) (hf_new [118; 50; 32; 98; 101; 102; 111; 114; 101; 0; 118; 50; 32; 97; 102; 116; 101; 114] 0))], true)).
Proof. vm_compute. reflexivity. Qed.
Example test_headers_3 : h_headers SReq false [107; 49; 58; 118; 49; 13; 10; 58; 118; 50; 13; 10; 32; 118; 50; 43; 13; 10; 107; 51; 58; 32; 118; 51; 13; 10; 107; 52; 32; 118; 52; 13; 10; 107; 13; 53; 58; 118; 13; 53; 10; 13; 109; 111; 114; 101; 13; 10; 13; 10] = Some (POk [] ([(mk_ph (hf_new [107; 49] 0) (hf_new [118; 49] 0)); (mk_ph (hf_new [] HF_NAME_EMPTY) (hf_new [118; 50; 32; 118; 50; 43] HF_FOLDING)); (mk_ph (hf_new [107; 51] 0) (hf_new [118; 51] 0)); (mk_ph (hf_new [] HF_MISSING_COLON) (hf_new [107; 52; 32; 118; 52] HF_MISSING_COLON)); (mk_ph (hf_new [107; 13; 53] HF_NAME_NON_TOKEN_CHARS) (hf_new [118; 13; 53] 0)); (mk_ph (hf_new [] HF_MISSING_COLON) (hf_new [109; 111; 114; 101] HF_MISSING_COLON))], true)).
Proof. vm_compute. reflexivity. Qed.
Example test_headers_4 : h_headers SResp false [107; 49; 58; 118; 49; 13; 10; 58; 118; 50; 13; 10; 32; 118; 50; 43; 13; 10; 107; 51; 58; 32; 118; 51; 13; 10; 107; 52; 32; 118; 52; 13; 10; 107; 13; 53; 58; 118; 13; 53; 10; 13; 109; 111; 114; 101; 13; 10; 13; 10] = Some (POk [] ([(mk_ph (hf_new [107; 49] 0) (hf_new [118; 49] 0)); (mk_ph (hf_new [] HF_NAME_EMPTY) (hf_new [118; 50; 32; 118; 50; 43] HF_FOLDING)); (mk_ph (hf_new [107; 51] 0) (hf_new [118; 51] 0)); (mk_ph (hf_new [] HF_MISSING_COLON) (hf_new [107; 52; 32; 118; 52] HF_MISSING_COLON)); (mk_ph (hf_new [107; 13; 53] HF_NAME_NON_TOKEN_CHARS) (hf_new [118] 0)); (mk_ph (hf_new [] HF_MISSING_COLON) (hf_new [53] HF_MISSING_COLON)); (mk_ph (hf_new [] HF_MISSING_COLON) (hf_new [109; 111; 114; 101] HF_MISSING_COLON))], true)).
Proof. vm_compute. reflexivity. Qed.
Example test_headers_5 : h_headers SReq false [107; 49; 58; 118; 49; 13; 10; 107; 50; 58; 118; 50; 13] = Some (POk [107; 50; 58; 118; 50; 13] ([(mk_ph (hf_new [107; 49] 0) (hf_new [118; 49] 0))], false)).
Proof. vm_compute. reflexivity. Qed.
Example test_headers_6 : h_headers SResp false [107; 49; 58; 118; 49; 13; 10; 107; 50; 58; 118; 50; 13] = Some (POk [107; 50; 58; 118; 50; 13] ([(mk_ph (hf_new [107; 49] 0) (hf_new [118; 49] 0))], false)).
Proof. vm_compute. reflexivity. Qed.
Example test_headers_7 : h_headers SReq false [107; 49; 58; 118; 49; 10; 107; 50; 58; 118; 50; 0; 118; 50; 13; 10; 107; 51; 58; 118; 51; 13] = Some (POk [107; 51; 58; 118; 51; 13] ([(mk_ph (hf_new [107; 49] 0) (hf_new [118; 49] 0)); (mk_ph (hf_new [107; 50] 0) (hf_new [118; 50; 0; 118; 50] 0))], false)).
Proof. vm_compute. reflexivity. Qed.
Example test_headers_8 : h_headers SResp false [107; 49; 58; 118; 49; 10; 107; 50; 58; 118; 50; 0; 118; 50; 13; 10; 107; 51; 58; 118; 51; 13] = Some (POk [107; 51; 58; 118; 51; 13] ([(mk_ph (hf_new [107; 49] 0) (hf_new [118; 49] 0)); (mk_ph (hf_new [107; 50] 0) (hf_new [118; 50; 0; 118; 50] 0))], false)).
Proof. vm_compute. reflexivity. Qed.
Example test_headers_eoh_1 : h_headers SReq false [78; 97; 109; 101; 49; 58; 32; 86; 97; 108; 117; 101; 49; 10; 78; 97; 109; 101; 50; 58; 86; 97; 108; 117; 101; 50; 10; 78; 97; 109; 101; 51; 58; 32; 86; 97; 108; 10; 32; 117; 101; 51; 10; 78; 97; 109; 101; 52; 58; 32; 86; 97; 108; 117; 101; 52; 10; 32; 86; 97; 108; 117; 101; 52; 46; 49; 10; 32; 86; 97; 108; 117; 101; 52; 46; 50; 10; 10] = Some (POk [] ([(mk_ph (hf_new [78; 97; 109; 101; 49] 0) (hf_new [86; 97; 108; 117; 101; 49] 0)); (mk_ph (hf_new [78; 97; 109; 101; 50] 0) (hf_new [86; 97; 108; 117; 101; 50] 0)); (mk_ph (hf_new [78; 97; 109; 101; 51] 0) (hf_new [86; 97; 108; 32; 117; 101; 51] HF_FOLDING)); (mk_ph (hf_new [78; 97; 109; 101; 52] 0) (hf_new [86; 97; 108; 117; 101; 52; 32; 86; 97; 108; 117; 101; 52; 46; 49; 32; 86; 97; 108; 117; 101; 52; 46; 50] HF_FOLDING))], true)).
Proof. vm_compute. reflexivity. Qed.
Example test_headers_eoh_2 : h_headers SResp false [78; 97; 109; 101; 49; 58; 32; 86; 97; 108; 117; 101; 49; 10; 78; 97; 109; 101; 50; 58; 86; 97; 108; 117; 101; 50; 10; 78; 97; 109; 101; 51; 58; 32; 86; 97; 108; 10; 32; 117; 101; 51; 10; 78; 97; 109; 101; 52; 58; 32; 86; 97; 108; 117; 101; 52; 10; 32; 86; 97; 108; 117; 101; 52; 46; 49; 10; 32; 86; 97; 108; 117; 101; 52; 46; 50; 10; 10] = Some (POk [] ([(mk_ph (hf_new [78; 97; 109; 101; 49] 0) (hf_new [86; 97; 108; 117; 101; 49] 0)); (mk_ph (hf_new [78; 97; 109; 101; 50] 0) (hf_new [86; 97; 108; 117; 101; 50] 0)); (mk_ph (hf_new [78; 97; 109; 101; 51] 0) (hf_new [86; 97; 108; 32; 117; 101; 51] HF_FOLDING)); (mk_ph (hf_new [78; 97; 109; 101; 52] 0) (hf_new [86; 97; 108; 117; 101; 52; 32; 86; 97; 108; 117; 101; 52; 46; 49; 32; 86; 97; 108; 117; 101; 52; 46; 50] HF_FOLDING))], true)).
Proof. vm_compute. reflexivity. Qed.
Example test_headers_eoh_3 : h_headers SReq false [78; 97; 109; 101; 49; 58; 32; 86; 97; 108; 117; 101; 49; 13; 10; 78; 97; 109; 101; 50; 58; 86; 97; 108; 117; 101; 50; 13; 10; 78; 97; 109; 101; 51; 58; 32; 86; 97; 108; 13; 10; 32; 117; 101; 51; 13; 10; 78; 97; 109; 101; 52; 58; 32; 86; 97; 108; 117; 101; 52; 13; 10; 32; 86; 97; 108; 117; 101; 52; 46; 49; 13; 10; 32; 86; 97; 108; 117; 101; 52; 46; 50; 13; 10; 13; 10] = Some (POk [] ([(mk_ph (hf_new [78; 97; 109; 101; 49] 0) (hf_new [86; 97; 108; 117; 101; 49] 0)); (mk_ph (hf_new [78; 97; 109; 101; 50] 0) (hf_new [86; 97; 108; 117; 101; 50] 0)); (mk_ph (hf_new [78; 97; 109; 101; 51] 0) (hf_new [86; 97; 108; 32; 117; 101; 51] HF_FOLDING)); (mk_ph (hf_new [78; 97; 109; 101; 52] 0) (hf_new [86; 97; 108; 117; 101; 52; 32; 86; 97; 108; 117; 101; 52; 46; 49; 32; 86; 97; 108; 117; 101; 52; 46; 50] HF_FOLDING))], true)).
Proof. vm_compute. reflexivity. Qed.
Example test_headers_eoh_4 : h_headers SResp false [78; 97; 109; 101; 49; 58; 32; 86; 97; 108; 117; 101; 49; 13; 10; 78; 97; 109; 101; 50; 58; 86; 97; 108; 117; 101; 50; 13; 10; 78; 97; 109; 101; 51; 58; 32; 86; 97; 108; 13; 10; 32; 117; 101; 51; 13; 10; 78; 97; 109; 101; 52; 58; 32; 86; 97; 108; 117; 101; 52; 13; 10; 32; 86; 97; 108; 117; 101; 52; 46; 49; 13; 10; 32; 86; 97; 108; 117; 101; 52; 46; 50; 13; 10; 13; 10] = Some (POk [] ([(mk_ph (hf_new [78; 97; 109; 101; 49] 0) (hf_new [86; 97; 108; 117; 101; 49] 0)); (mk_ph (hf_new [78; 97; 109; 101; 50] 0) (hf_new [86; 97; 108; 117; 101; 50] 0)); (mk_ph (hf_new [78; 97; 109; 101; 51] 0) (hf_new [86; 97; 108; 32; 117; 101; 51] HF_FOLDING)); (mk_ph (hf_new [78; 97; 109; 101; 52] 0) (hf_new [86; 97; 108; 117; 101; 52; 32; 86; 97; 108; 117; 101; 52; 46; 49; 32; 86; 97; 108; 117; 101; 52; 46; 50] HF_FOLDING))], true)).
Proof. vm_compute. reflexivity. Qed.
Example test_headers_eoh_5 : h_headers SReq false [78; 97; 109; 101; 49; 58; 32; 86; 97; 108; 117; 101; 49; 13; 10; 78; 97; 109; 101; 50; 58; 86; 97; 108; 117; 101; 50; 10; 78; 97; 109; 101; 51; 58; 32; 86; 97; 108; 13; 10; 32; 117; 101; 51; 13; 10; 78; 97; 109; 101; 52; 58; 32; 86; 97; 108; 117; 101; 52; 13; 10; 32; 86; 97; 108; 117; 101; 52; 46; 49; 10; 32; 86; 97; 108; 117; 101; 52; 46; 50; 13; 10; 10] = Some (POk [] ([(mk_ph (hf_new [78; 97; 109; 101; 49] 0) (hf_new [86; 97; 108; 117; 101; 49] 0)); (mk_ph (hf_new [78; 97; 109; 101; 50] 0) (hf_new [86; 97; 108; 117; 101; 50] 0)); (mk_ph (hf_new [78; 97; 109; 101; 51] 0) (hf_new [86; 97; 108; 32; 117; 101; 51] HF_FOLDING)); (mk_ph (hf_new [78; 97; 109; 101; 52] 0) (hf_new [86; 97; 108; 117; 101; 52; 32; 86; 97; 108; 117; 101; 52; 46; 49; 32; 86; 97; 108; 117; 101; 52; 46; 50] HF_FOLDING))], true)).
Proof. vm_compute. reflexivity. Qed.
Example test_headers_eoh_6 : h_headers SResp false [78; 97; 109; 101; 49; 58; 32; 86; 97; 108; 117; 101; 49; 13; 10; 78; 97; 109; 101; 50; 58; 86; 97; 108; 117; 101; 50; 10; 78; 97; 109; 101; 51; 58; 32; 86; 97; 108; 13; 10; 32; 117; 101; 51; 13; 10; 78; 97; 109; 101; 52; 58; 32; 86; 97; 108; 117; 101; 52; 13; 10; 32; 86; 97; 108; 117; 101; 52; 46; 49; 10; 32; 86; 97; 108; 117; 101; 52; 46; 50; 13; 10; 10] = Some (POk [] ([(mk_ph (hf_new [78; 97; 109; 101; 49] 0) (hf_new [86; 97; 108; 117; 101; 49] 0)); (mk_ph (hf_new [78; 97; 109; 101; 50] 0) (hf_new [86; 97; 108; 117; 101; 50] 0)); (mk_ph (hf_new [78; 97; 109; 101; 51] 0) (hf_new [86; 97; 108; 32; 117; 101; 51] HF_FOLDING)); (mk_ph (hf_new [78; 97; 109; 101; 52] 0) (hf_new [86; 97; 108; 117; 101; 52; 32; 86; 97; 108; 117; 101; 52; 46; 49; 32; 86; 97; 108; 117; 101; 52; 46; 50] HF_FOLDING))], true)).
Proof. vm_compute. reflexivity. Qed.
Example test_headers_eoh_7 : h_headers SReq false [78; 97; 109; 101; 49; 58; 32; 86; 97; 108; 117; 101; 49; 13; 78; 97; 109; 101; 50; 58; 86; 97; 108; 117; 101; 50; 13; 78; 97; 109; 101; 51; 58; 32; 86; 97; 108; 13; 10; 32; 117; 101; 51; 13; 78; 97; 109; 101; 52; 58; 32; 86; 97; 108; 117; 101; 52; 13; 10; 32; 86; 97; 108; 117; 101; 52; 46; 49; 13; 10; 32; 86; 97; 108; 117; 101; 52; 46; 50; 13; 13; 10] = Some PInc.
Proof. vm_compute. reflexivity. Qed.
Example test_headers_eoh_8 : h_headers SResp false [78; 97; 109; 101; 49; 58; 32; 86; 97; 108; 117; 101; 49; 13; 78; 97; 109; 101; 50; 58; 86; 97; 108; 117; 101; 50; 13; 78; 97; 109; 101; 51; 58; 32; 86; 97; 108; 13; 10; 32; 117; 101; 51; 13; 78; 97; 109; 101; 52; 58; 32; 86; 97; 108; 117; 101; 52; 13; 10; 32; 86; 97; 108; 117; 101; 52; 46; 49; 13; 10; 32; 86; 97; 108; 117; 101; 52; 46; 50; 13; 13; 10] = Some (POk [] ([(mk_ph (hf_new [78; 97; 109; 101; 49] 0) (hf_new [86; 97; 108; 117; 101; 49] 0)); (mk_ph (hf_new [78; 97; 109; 101; 50] 0) (hf_new [86; 97; 108; 117; 101; 50] 0)); (mk_ph (hf_new [78; 97; 109; 101; 51] 0) (hf_new [86; 97; 108; 32; 117; 101; 51] HF_FOLDING)); (mk_ph (hf_new [78; 97; 109; 101; 52] 0) (hf_new [86; 97; 108; 117; 101; 52; 32; 86; 97; 108; 117; 101; 52; 46; 49; 32; 86; 97; 108; 117; 101; 52; 46; 50] HF_FOLDING))], true)).
Proof. vm_compute. reflexivity. Qed.
Example test_headers_eoh_9 : h_headers SReq false [78; 97; 109; 101; 49; 58; 32; 86; 97; 108; 117; 101; 49; 13; 78; 97; 109; 101; 50; 58; 86; 97; 108; 117; 101; 50; 13; 78; 97; 109; 101; 51; 58; 32; 86; 97; 108; 13; 10; 32; 117; 101; 51; 13; 10; 78; 97; 109; 101; 52; 58; 32; 86; 97; 108; 117; 101; 52; 13; 10; 32; 86; 97; 108; 117; 101; 52; 46; 49; 10; 32; 86; 97; 108; 117; 101; 52; 46; 50; 13; 10; 10] = Some (POk [] ([(mk_ph (hf_new [78; 97; 109; 101; 49] 0) (hf_new [86; 97; 108; 117; 101; 49; 13; 78; 97; 109; 101; 50; 58; 86; 97; 108; 117; 101; 50; 13; 78; 97; 109; 101; 51; 58; 32; 86; 97; 108; 32; 117; 101; 51] HF_FOLDING)); (mk_ph (hf_new [78; 97; 109; 101; 52] 0) (hf_new [86; 97; 108; 117; 101; 52; 32; 86; 97; 108; 117; 101; 52; 46; 49; 32; 86; 97; 108; 117; 101; 52; 46; 50] HF_FOLDING))], true)).
Proof. vm_compute. reflexivity. Qed.
Example test_headers_eoh_10 : h_headers SResp false [78; 97; 109; 101; 49; 58; 32; 86; 97; 108; 117; 101; 49; 13; 78; 97; 109; 101; 50; 58; 86; 97; 108; 117; 101; 50; 13; 78; 97; 109; 101; 51; 58; 32; 86; 97; 108; 13; 10; 32; 117; 101; 51; 13; 10; 78; 97; 109; 101; 52; 58; 32; 86; 97; 108; 117; 101; 52; 13; 10; 32; 86; 97; 108; 117; 101; 52; 46; 49; 10; 32; 86; 97; 108; 117; 101; 52; 46; 50; 13; 10; 10] = Some (POk [] ([(mk_ph (hf_new [78; 97; 109; 101; 49] 0) (hf_new [86; 97; 108; 117; 101; 49] 0)); (mk_ph (hf_new [78; 97; 109; 101; 50] 0) (hf_new [86; 97; 108; 117; 101; 50] 0)); (mk_ph (hf_new [78; 97; 109; 101; 51] 0) (hf_new [86; 97; 108; 32; 117; 101; 51] HF_FOLDING)); (mk_ph (hf_new [78; 97; 109; 101; 52] 0) (hf_new [86; 97; 108; 117; 101; 52; 32; 86; 97; 108; 117; 101; 52; 46; 49; 32; 86; 97; 108; 117; 101; 52; 46; 50] HF_FOLDING))], true)).
Proof. vm_compute. reflexivity. Qed.
Example test_headers_eoh_11 : h_headers SReq false [78; 97; 109; 101; 49; 58; 32; 86; 97; 108; 117; 101; 49; 13; 10; 78; 97; 109; 101; 50; 58; 86; 97; 108; 117; 101; 50; 10; 78; 97; 109; 101; 51; 58; 32; 86; 97; 108; 10; 13; 32; 117; 101; 51; 10; 13; 78; 97; 109; 101; 52; 58; 32; 86; 97; 108; 117; 101; 52; 13; 10; 32; 86; 97; 108; 117; 101; 52; 46; 49; 10; 32; 86; 97; 108; 117; 101; 52; 46; 50; 13; 10; 10] = Some (POk [] ([(mk_ph (hf_new [78; 97; 109; 101; 49] 0) (hf_new [86; 97; 108; 117; 101; 49] 0)); (mk_ph (hf_new [78; 97; 109; 101; 50] 0) (hf_new [86; 97; 108; 117; 101; 50] 0)); (mk_ph (hf_new [78; 97; 109; 101; 51] 0) (hf_new [86; 97; 108] 0)); (mk_ph (hf_new [] HF_MISSING_COLON) (hf_new [117; 101; 51] HF_MISSING_COLON)); (mk_ph (hf_new [78; 97; 109; 101; 52] HF_NAME_NON_TOKEN_CHARS) (hf_new [86; 97; 108; 117; 101; 52; 32; 86; 97; 108; 117; 101; 52; 46; 49; 32; 86; 97; 108; 117; 101; 52; 46; 50] HF_FOLDING))], true)).
Proof. vm_compute. reflexivity. Qed.
Example test_headers_eoh_12 : h_headers SResp false [78; 97; 109; 101; 49; 58; 32; 86; 97; 108; 117; 101; 49; 13; 10; 78; 97; 109; 101; 50; 58; 86; 97; 108; 117; 101; 50; 10; 78; 97; 109; 101; 51; 58; 32; 86; 97; 108; 10; 13; 32; 117; 101; 51; 10; 13; 78; 97; 109; 101; 52; 58; 32; 86; 97; 108; 117; 101; 52; 13; 10; 32; 86; 97; 108; 117; 101; 52; 46; 49; 10; 32; 86; 97; 108; 117; 101; 52; 46; 50; 13; 10; 10] = Some (POk [] ([(mk_ph (hf_new [78; 97; 109; 101; 49] 0) (hf_new [86; 97; 108; 117; 101; 49] 0)); (mk_ph (hf_new [78; 97; 109; 101; 50] 0) (hf_new [86; 97; 108; 117; 101; 50] 0)); (mk_ph (hf_new [78; 97; 109; 101; 51] 0) (hf_new [86; 97; 108; 32; 117; 101; 51] HF_FOLDING)); (mk_ph (hf_new [78; 97; 109; 101; 52] 0) (hf_new [86; 97; 108; 117; 101; 52; 32; 86; 97; 108; 117; 101; 52; 46; 49; 32; 86; 97; 108; 117; 101; 52; 46; 50] HF_FOLDING))], true)).
Proof. vm_compute. reflexivity. Qed.
Example test_headers_eoh_13 : h_headers SReq false [78; 97; 109; 101; 49; 58; 32; 86; 97; 108; 117; 101; 49; 10; 13; 78; 97; 109; 101; 50; 58; 86; 97; 108; 117; 101; 50; 10; 13; 78; 97; 109; 101; 51; 58; 32; 86; 97; 108; 10; 13; 32; 117; 101; 51; 10; 13; 78; 97; 109; 101; 52; 58; 32; 86; 97; 108; 117; 101; 52; 10; 13; 32; 86; 97; 108; 117; 101; 52; 46; 49; 10; 13; 32; 86; 97; 108; 117; 101; 52; 46; 50; 10; 13; 10; 13] = Some (POk [13] ([(mk_ph (hf_new [78; 97; 109; 101; 49] 0) (hf_new [86; 97; 108; 117; 101; 49] 0)); (mk_ph (hf_new [78; 97; 109; 101; 50] HF_NAME_NON_TOKEN_CHARS) (hf_new [86; 97; 108; 117; 101; 50] 0)); (mk_ph (hf_new [78; 97; 109; 101; 51] HF_NAME_NON_TOKEN_CHARS) (hf_new [86; 97; 108] 0)); (mk_ph (hf_new [] HF_MISSING_COLON) (hf_new [117; 101; 51] HF_MISSING_COLON)); (mk_ph (hf_new [78; 97; 109; 101; 52] HF_NAME_NON_TOKEN_CHARS) (hf_new [86; 97; 108; 117; 101; 52] 0)); (mk_ph (hf_new [] HF_MISSING_COLON) (hf_new [86; 97; 108; 117; 101; 52; 46; 49] HF_MISSING_COLON)); (mk_ph (hf_new [] HF_MISSING_COLON) (hf_new [86; 97; 108; 117; 101; 52; 46; 50] HF_MISSING_COLON))], true)).
Proof. vm_compute. reflexivity. Qed.
Example test_headers_eoh_14 : h_headers SResp false [78; 97; 109; 101; 49; 58; 32; 86; 97; 108; 117; 101; 49; 10; 13; 78; 97; 109; 101; 50; 58; 86; 97; 108; 117; 101; 50; 10; 13; 78; 97; 109; 101; 51; 58; 32; 86; 97; 108; 10; 13; 32; 117; 101; 51; 10; 13; 78; 97; 109; 101; 52; 58; 32; 86; 97; 108; 117; 101; 52; 10; 13; 32; 86; 97; 108; 117; 101; 52; 46; 49; 10; 13; 32; 86; 97; 108; 117; 101; 52; 46; 50; 10; 13; 10; 13] = Some (POk [] ([(mk_ph (hf_new [78; 97; 109; 101; 49] 0) (hf_new [86; 97; 108; 117; 101; 49] 0)); (mk_ph (hf_new [78; 97; 109; 101; 50] 0) (hf_new [86; 97; 108; 117; 101; 50] 0)); (mk_ph (hf_new [78; 97; 109; 101; 51] 0) (hf_new [86; 97; 108; 32; 117; 101; 51] HF_FOLDING)); (mk_ph (hf_new [78; 97; 109; 101; 52] 0) (hf_new [86; 97; 108; 117; 101; 52; 32; 86; 97; 108; 117; 101; 52; 46; 49; 32; 86; 97; 108; 117; 101; 52; 46; 50] HF_FOLDING))], true)).
Proof. vm_compute. reflexivity. Qed.
Example test_header_sans_colon_1 : header_sans_colon SReq false [75; 32; 86] = Some PInc.
Proof. vm_compute. reflexivity. Qed.
Example test_header_sans_colon_2 : header_sans_colon SResp false [75; 32; 86] = Some PInc.
Proof. vm_compute. reflexivity. Qed.
Example test_header_sans_colon_3 : header_sans_colon SReq false [75; 58; 86; 13; 10] = Some PInc.
Proof. vm_compute. reflexivity. Qed.
Example test_header_sans_colon_4 : header_sans_colon SResp false [75; 58; 86; 13; 10] = Some PInc.
Proof. vm_compute. reflexivity. Qed.
Example test_header_sans_colon_5 : header_sans_colon SReq false [75; 58; 86; 13; 10; 75; 50; 58; 32; 86; 50] = Some (POk [75; 50; 58; 32; 86; 50] (mk_ph (hf_new [] HF_MISSING_COLON) (hf_new [75; 58; 86] HF_MISSING_COLON))).
Proof. vm_compute. reflexivity. Qed.
Example test_header_sans_colon_6 : header_sans_colon SResp false [75; 58; 86; 13; 10; 75; 50; 58; 32; 86; 50] = Some (POk [75; 50; 58; 32; 86; 50] (mk_ph (hf_new [] HF_MISSING_COLON) (hf_new [75; 58; 86] HF_MISSING_COLON))).
Proof. vm_compute. reflexivity. Qed.
Example test_header_sans_colon_7 : header_sans_colon SReq false [13; 10] = Some PErr.
Proof. vm_compute. reflexivity. Qed.
Example test_header_sans_colon_8 : header_sans_colon SResp false [13; 10] = Some PErr.
Proof. vm_compute. reflexivity. Qed.
Example test_header_sans_colon_9 : header_sans_colon SReq false [75; 32; 86; 0; 97; 108; 117; 101; 13; 10; 107] = Some (POk [107] (mk_ph (hf_new [] HF_MISSING_COLON) (hf_new [75; 32; 86; 0; 97; 108; 117; 101] HF_MISSING_COLON))).
Proof. vm_compute. reflexivity. Qed.
Example test_header_sans_colon_10 : header_sans_colon SResp false [75; 32; 86; 0; 97; 108; 117; 101; 13; 10; 107] = Some (POk [107] (mk_ph (hf_new [] HF_MISSING_COLON) (hf_new [75; 32; 86; 0; 97; 108; 117; 101] HF_MISSING_COLON))).
Proof. vm_compute. reflexivity. Qed.
Example test_header_sans_colon_11 : header_sans_colon SReq false [75; 32; 86; 13; 97; 108; 117; 101; 13; 10; 107] = Some (POk [107] (mk_ph (hf_new [] HF_MISSING_COLON) (hf_new [75; 32; 86; 13; 97; 108; 117; 101] HF_MISSING_COLON))).
Proof. vm_compute. reflexivity. Qed.
Example test_header_sans_colon_12 : header_sans_colon SResp false [75; 32; 86; 13; 97; 108; 117; 101; 13; 10; 107] = Some (POk [97; 108; 117; 101; 13; 10; 107] (mk_ph (hf_new [] HF_MISSING_COLON) (hf_new [75; 32; 86] HF_MISSING_COLON))).
Proof. vm_compute. reflexivity. Qed.
Example test_header_sans_colon_13 : header_sans_colon SReq false [75; 32; 86; 13; 10; 107; 49; 58; 118; 49; 13; 10] = Some (POk [107; 49; 58; 118; 49; 13; 10] (mk_ph (hf_new [] HF_MISSING_COLON) (hf_new [75; 32; 86] HF_MISSING_COLON))).
Proof. vm_compute. reflexivity. Qed.
Example test_header_sans_colon_14 : header_sans_colon SResp false [75; 32; 86; 13; 10; 107; 49; 58; 118; 49; 13; 10] = Some (POk [107; 49; 58; 118; 49; 13; 10] (mk_ph (hf_new [] HF_MISSING_COLON) (hf_new [75; 32; 86] HF_MISSING_COLON))).
Proof. vm_compute. reflexivity. Qed.
Example test_header_sans_colon_15 : header_sans_colon SReq false [75; 32; 86; 10; 107; 49; 58; 118; 49; 13; 10] = Some (POk [107; 49; 58; 118; 49; 13; 10] (mk_ph (hf_new [] HF_MISSING_COLON) (hf_new [75; 32; 86] HF_MISSING_COLON))).
Proof. vm_compute. reflexivity. Qed.
Example test_header_sans_colon_16 : header_sans_colon SResp false [75; 32; 86; 10; 107; 49; 58; 118; 49; 13; 10] = Some (POk [107; 49; 58; 118; 49; 13; 10] (mk_ph (hf_new [] HF_MISSING_COLON) (hf_new [75; 32; 86] HF_MISSING_COLON))).
Proof. vm_compute. reflexivity. Qed.
Example test_header_with_colon_1 : header_with_colon SReq false [75; 58; 32; 86] = Some PInc.
Proof. vm_compute. reflexivity. Qed.
Example test_header_with_colon_2 : header_with_colon SResp false [75; 58; 32; 86] = Some PInc.
Proof. vm_compute. reflexivity. Qed.
Example test_header_with_colon_3 : header_with_colon SReq false [75; 58; 32; 86; 13; 10] = Some PInc.
Proof. vm_compute. reflexivity. Qed.
Example test_header_with_colon_4 : header_with_colon SResp false [75; 58; 32; 86; 13; 10] = Some PInc.
Proof. vm_compute. reflexivity. Qed.
Example test_header_with_colon_5 : header_with_colon SReq false [75; 32; 86; 10; 75; 58; 86; 13; 10] = Some PErr.
Proof. vm_compute. reflexivity. Qed.
Example test_header_with_colon_6 : header_with_colon SResp false [75; 32; 86; 10; 75; 58; 86; 13; 10] = Some PErr.
Proof. vm_compute. reflexivity. Qed.
Example test_header_with_colon_7 : header_with_colon SReq false [58; 13; 10; 13; 10] = Some (POk [13; 10] (mk_ph (hf_new [] HF_NAME_EMPTY) (hf_new [] HF_VALUE_EMPTY))).
Proof. vm_compute. reflexivity. Qed.
Example test_header_with_colon_8 : header_with_colon SResp false [58; 13; 10; 13; 10] = Some (POk [13; 10] (mk_ph (hf_new [] HF_NAME_EMPTY) (hf_new [] HF_VALUE_EMPTY))).
Proof. vm_compute. reflexivity. Qed.
Example test_header_with_colon_9 : header_with_colon SReq false [75; 58; 13; 10; 13; 10] = Some (POk [13; 10] (mk_ph (hf_new [75] 0) (hf_new [] HF_VALUE_EMPTY))).
Proof. vm_compute. reflexivity. Qed.
Example test_header_with_colon_10 : header_with_colon SResp false [75; 58; 13; 10; 13; 10] = Some (POk [13; 10] (mk_ph (hf_new [75] 0) (hf_new [] HF_VALUE_EMPTY))).
Proof. vm_compute. reflexivity. Qed.
Example test_header_with_colon_11 : header_with_colon SReq false [58; 86; 13; 10; 13; 10] = Some (POk [13; 10] (mk_ph (hf_new [] HF_NAME_EMPTY) (hf_new [86] 0))).
Proof. vm_compute. reflexivity. Qed.
Example test_header_with_colon_12 : header_with_colon SResp false [58; 86; 13; 10; 13; 10] = Some (POk [13; 10] (mk_ph (hf_new [] HF_NAME_EMPTY) (hf_new [86] 0))).
Proof. vm_compute. reflexivity. Qed.
Example test_header_with_colon_13 : header_with_colon SReq false [75; 58; 102; 111; 108; 100; 101; 100; 13; 10; 13; 86; 13; 10; 13; 10] = Some (POk [13; 86; 13; 10; 13; 10] (mk_ph (hf_new [75] 0) (hf_new [102; 111; 108; 100; 101; 100] 0))).
Proof. vm_compute. reflexivity. Qed.
Example test_header_with_colon_14 : header_with_colon SResp false [75; 58; 102; 111; 108; 100; 101; 100; 13; 10; 13; 86; 13; 10; 13; 10] = Some (POk [13; 86; 13; 10; 13; 10] (mk_ph (hf_new [75] 0) (hf_new [102; 111; 108; 100; 101; 100] 0))).
Proof. vm_compute. reflexivity. Qed.
Example test_header_with_colon_15 : header_with_colon SReq false [75; 58; 32; 86; 13; 10; 13; 10] = Some (POk [13; 10] (mk_ph (hf_new [75] 0) (hf_new [86] 0))).
Proof. vm_compute. reflexivity. Qed.
Example test_header_with_colon_16 : header_with_colon SResp false [75; 58; 32; 86; 13; 10; 13; 10] = Some (POk [13; 10] (mk_ph (hf_new [75] 0) (hf_new [86] 0))).
Proof. vm_compute. reflexivity. Qed.
Example test_header_with_colon_17 : header_with_colon SReq false [75; 58; 32; 86; 32; 98; 101; 102; 111; 114; 101; 0; 32; 86; 32; 97; 102; 116; 101; 114; 13; 10; 13; 10] = Some (POk [13; 10] (mk_ph (hf_new [75] 0) (hf_new [86; 32; 98; 101; 102; 111; 114; 101; 0; 32; 86; 32; 97; 102; 116; 101; 114] 0))).
Proof. vm_compute. reflexivity. Qed.
Example test_header_with_colon_18 : header_with_colon SResp false [75; 58; 32; 86; 32; 98; 101; 102; 111; 114; 101; 0; 32; 86; 32; 97; 102; 116; 101; 114; 13; 10; 13; 10] = Some (POk [13; 10] (mk_ph (hf_new [75] 0) (hf_new [86; 32; 98; 101; 102; 111; 114; 101; 0; 32; 86; 32; 97; 102; 116; 101; 114] 0))).
Proof. vm_compute. reflexivity. Qed.
Example test_header_with_colon_19 : header_with_colon SReq false [75; 58; 32; 86; 13; 10; 13; 10] = Some (POk [13; 10] (mk_ph (hf_new [75] 0) (hf_new [86] 0))).
Proof. vm_compute. reflexivity. Qed.
Example test_header_with_colon_20 : header_with_colon SResp false [75; 58; 32; 86; 13; 10; 13; 10] = Some (POk [13; 10] (mk_ph (hf_new [75] 0) (hf_new [86] 0))).
Proof. vm_compute. reflexivity. Qed.
Example test_header_with_colon_21 : header_with_colon SReq false [75; 58; 32; 86; 32; 98; 101; 102; 111; 114; 101; 0; 32; 86; 32; 97; 102; 116; 101; 114; 13; 10; 13; 10] = Some (POk [13; 10] (mk_ph (hf_new [75] 0) (hf_new [86; 32; 98; 101; 102; 111; 114; 101; 0; 32; 86; 32; 97; 102; 116; 101; 114] 0))).
Proof. vm_compute. reflexivity. Qed.
Example test_header_with_colon_22 : header_with_colon SResp false [75; 58; 32; 86; 32; 98; 101; 102; 111; 114; 101; 0; 32; 86; 32; 97; 102; 116; 101; 114; 13; 10; 13; 10] = Some (POk [13; 10] (mk_ph (hf_new [75] 0) (hf_new [86; 32; 98; 101; 102; 111; 114; 101; 0; 32; 86; 32; 97; 102; 116; 101; 114] 0))).
Proof. vm_compute. reflexivity. Qed.
Example test_header_with_colon_23 : header_with_colon SReq false [75; 58; 32; 86; 13; 10; 32; 97; 13; 10; 32; 108; 13; 10; 32; 117; 13; 10; 9; 101; 13; 10; 13; 10] = Some (POk [13; 10] (mk_ph (hf_new [75] 0) (hf_new [86; 32; 97; 32; 108; 32; 117; 9; 101] HF_FOLDING))).
Proof. vm_compute. reflexivity. Qed.
Example test_header_with_colon_24 : header_with_colon SResp false [75; 58; 32; 86; 13; 10; 32; 97; 13; 10; 32; 108; 13; 10; 32; 117; 13; 10; 9; 101; 13; 10; 13; 10] = Some (POk [13; 10] (mk_ph (hf_new [75] 0) (hf_new [86; 32; 97; 32; 108; 32; 117; 9; 101] HF_FOLDING))).
Proof. vm_compute. reflexivity. Qed.
Example test_header_1 : h_header SReq false [75; 58; 32; 86] = Some PInc.
Proof. vm_compute. reflexivity. Qed.
Example test_header_2 : h_header SResp false [75; 58; 32; 86] = Some PInc.
Proof. vm_compute. reflexivity. Qed.
Example test_header_3 : h_header SReq false [75; 58; 32; 86; 13; 10] = Some PInc.
Proof. vm_compute. reflexivity. Qed.
Example test_header_4 : h_header SResp false [75; 58; 32; 86; 13; 10] = Some PInc.
Proof. vm_compute. reflexivity. Qed.
Example test_header_5 : h_header SReq false [75; 32; 86; 13; 10] = Some PInc.
Proof. vm_compute. reflexivity. Qed.
Example test_header_6 : h_header SResp false [75; 32; 86; 13; 10] = Some PInc.
Proof. vm_compute. reflexivity. Qed.
Example test_header_7 : h_header SReq false [75; 49; 32; 86; 49; 13; 10; 75; 50; 58; 86; 50; 10; 13; 10] = Some (POk [75; 50; 58; 86; 50; 10; 13; 10] (mk_ph (hf_new [] HF_MISSING_COLON) (hf_new [75; 49; 32; 86; 49] HF_MISSING_COLON))).
Proof. vm_compute. reflexivity. Qed.
Example test_header_8 : h_header SResp false [75; 49; 32; 86; 49; 13; 10; 75; 50; 58; 86; 50; 10; 13; 10] = Some (POk [75; 50; 58; 86; 50; 10; 13; 10] (mk_ph (hf_new [] HF_MISSING_COLON) (hf_new [75; 49; 32; 86; 49] HF_MISSING_COLON))).
Proof. vm_compute. reflexivity. Qed.
Example test_header_9 : h_header SReq false [75; 49; 58; 86; 49; 10; 75; 50; 58; 86; 50; 10; 13; 10] = Some (POk [75; 50; 58; 86; 50; 10; 13; 10] (mk_ph (hf_new [75; 49] 0) (hf_new [86; 49] 0))).
Proof. vm_compute. reflexivity. Qed.
Example test_header_10 : h_header SResp false [75; 49; 58; 86; 49; 10; 75; 50; 58; 86; 50; 10; 13; 10] = Some (POk [75; 50; 58; 86; 50; 10; 13; 10] (mk_ph (hf_new [75; 49] 0) (hf_new [86; 49] 0))).
Proof. vm_compute. reflexivity. Qed.
Example test_header_11 : h_header SReq false [58; 13; 10; 13; 10] = Some (POk [13; 10] (mk_ph (hf_new [] HF_NAME_EMPTY) (hf_new [] HF_VALUE_EMPTY))).
Proof. vm_compute. reflexivity. Qed.
Example test_header_12 : h_header SResp false [58; 13; 10; 13; 10] = Some (POk [13; 10] (mk_ph (hf_new [] HF_NAME_EMPTY) (hf_new [] HF_VALUE_EMPTY))).
Proof. vm_compute. reflexivity. Qed.
Example test_header_13 : h_header SReq false [75; 58; 13; 10; 13; 10] = Some (POk [13; 10] (mk_ph (hf_new [75] 0) (hf_new [] HF_VALUE_EMPTY))).
Proof. vm_compute. reflexivity. Qed.
Example test_header_14 : h_header SResp false [75; 58; 13; 10; 13; 10] = Some (POk [13; 10] (mk_ph (hf_new [75] 0) (hf_new [] HF_VALUE_EMPTY))).
Proof. vm_compute. reflexivity. Qed.
Example test_header_15 : h_header SReq false [58; 86; 13; 10; 13; 10] = Some (POk [13; 10] (mk_ph (hf_new [] HF_NAME_EMPTY) (hf_new [86] 0))).
Proof. vm_compute. reflexivity. Qed.
Example test_header_16 : h_header SResp false [58; 86; 13; 10; 13; 10] = Some (POk [13; 10] (mk_ph (hf_new [] HF_NAME_EMPTY) (hf_new [86] 0))).
Proof. vm_compute. reflexivity. Qed.
Example test_header_17 : h_header SReq false [75; 58; 102; 111; 108; 100; 101; 100; 13; 10; 13; 86; 13; 10; 13; 10] = Some (POk [13; 86; 13; 10; 13; 10] (mk_ph (hf_new [75] 0) (hf_new [102; 111; 108; 100; 101; 100] 0))).
Proof. vm_compute. reflexivity. Qed.
Example test_header_18 : h_header SResp false [75; 58; 102; 111; 108; 100; 101; 100; 13; 10; 13; 86; 13; 10; 13; 10] = Some (POk [13; 86; 13; 10; 13; 10] (mk_ph (hf_new [75] 0) (hf_new [102; 111; 108; 100; 101; 100] 0))).
Proof. vm_compute. reflexivity. Qed.
Example test_header_19 : h_header SReq false [75; 58; 32; 86; 13; 10; 13; 10] = Some (POk [13; 10] (mk_ph (hf_new [75] 0) (hf_new [86] 0))).
Proof. vm_compute. reflexivity. Qed.
Example test_header_20 : h_header SResp false [75; 58; 32; 86; 13; 10; 13; 10] = Some (POk [13; 10] (mk_ph (hf_new [75] 0) (hf_new [86] 0))).
Proof. vm_compute. reflexivity. Qed.
Example test_header_21 : h_header SReq false [75; 58; 32; 86; 10; 32; 97; 13; 10; 32; 108; 10; 32; 117; 13; 10; 9; 101; 13; 10; 13; 10] = Some (POk [13; 10] (mk_ph (hf_new [75] 0) (hf_new [86; 32; 97; 32; 108; 32; 117; 9; 101] HF_FOLDING))).
Proof. vm_compute. reflexivity. Qed.
Example test_header_22 : h_header SResp false [75; 58; 32; 86; 10; 32; 97; 13; 10; 32; 108; 10; 32; 117; 13; 10; 9; 101; 13; 10; 13; 10] = Some (POk [13; 10] (mk_ph (hf_new [75] 0) (hf_new [86; 32; 97; 32; 108; 32; 117; 9; 101] HF_FOLDING))).
Proof. vm_compute. reflexivity. Qed.
Example test_header_23 : h_header SReq false [72; 111; 115; 116; 58; 119; 119; 119; 46; 103; 111; 111; 103; 108; 101; 46; 99; 111; 109; 13; 78; 97; 109; 101; 58; 32; 86; 97; 108; 117; 101; 13; 10; 13; 10] = Some (POk [13; 10] (mk_ph (hf_new [72; 111; 115; 116] 0) (hf_new [119; 119; 119; 46; 103; 111; 111; 103; 108; 101; 46; 99; 111; 109; 13; 78; 97; 109; 101; 58; 32; 86; 97; 108; 117; 101] 0))).
Proof. vm_compute. reflexivity. Qed.
Example test_header_24 : h_header SResp false [72; 111; 115; 116; 58; 119; 119; 119; 46; 103; 111; 111; 103; 108; 101; 46; 99; 111; 109; 13; 78; 97; 109; 101; 58; 32; 86; 97; 108; 117; 101; 13; 10; 13; 10] = Some (POk [78; 97; 109; 101; 58; 32; 86; 97; 108; 117; 101; 13; 10; 13; 10] (mk_ph (hf_new [72; 111; 115; 116] 0) (hf_new [119; 119; 119; 46; 103; 111; 111; 103; 108; 101; 46; 99; 111; 109] 0))).
Proof. vm_compute. reflexivity. Qed.
Example test_header_25 : h_header SReq false [75; 58; 32; 86; 32; 98; 101; 102; 111; 114; 101; 0; 32; 86; 32; 97; 102; 116; 101; 114; 13; 10; 13; 10] = Some (POk [13; 10] (mk_ph (hf_new [75] 0) (hf_new [86; 32; 98; 101; 102; 111; 114; 101; 0; 32; 86; 32; 97; 102; 116; 101; 114] 0))).
Proof. vm_compute. reflexivity. Qed.
Example test_header_26 : h_header SResp false [75; 58; 32; 86; 32; 98; 101; 102; 111; 114; 101; 0; 32; 86; 32; 97; 102; 116; 101; 114; 13; 10; 13; 10] = Some (POk [13; 10] (mk_ph (hf_new [75] 0) (hf_new [86; 32; 98; 101; 102; 111; 114; 101; 0; 32; 86; 32; 97; 102; 116; 101; 114] 0))).
Proof. vm_compute. reflexivity. Qed.
Example test_header_27 : h_header SReq false [75; 58; 32; 86; 13; 32; 97; 13; 10; 32; 108; 10; 32; 117; 13; 10; 9; 101; 13; 10; 13; 10] = Some (POk [13; 10] (mk_ph (hf_new [75] 0) (hf_new [86; 13; 32; 97; 32; 108; 32; 117; 9; 101] HF_FOLDING))).
Proof. vm_compute. reflexivity. Qed.
Example test_header_28 : h_header SResp false [75; 58; 32; 86; 13; 32; 97; 13; 10; 32; 108; 10; 32; 117; 13; 10; 9; 101; 13; 10; 13; 10] = Some (POk [13; 10] (mk_ph (hf_new [75] 0) (hf_new [86; 32; 97; 32; 108; 32; 117; 9; 101] HF_FOLDING))).
Proof. vm_compute. reflexivity. Qed.
Example test_header_29 : h_header SReq false [75; 58; 100; 101; 102; 111; 114; 109; 101; 100; 32; 102; 111; 108; 100; 101; 100; 10; 13; 32; 86; 10; 13; 13; 10; 10] = Some (POk [13; 32; 86; 10; 13; 13; 10; 10] (mk_ph (hf_new [75] 0) (hf_new [100; 101; 102; 111; 114; 109; 101; 100; 32; 102; 111; 108; 100; 101; 100] 0))).
Proof. vm_compute. reflexivity. Qed.
Example test_header_30 : h_header SResp false [75; 58; 100; 101; 102; 111; 114; 109; 101; 100; 32; 102; 111; 108; 100; 101; 100; 10; 13; 32; 86; 10; 13; 13; 10; 10] = Some (POk [10] (mk_ph (hf_new [75] 0) (hf_new [100; 101; 102; 111; 114; 109; 101; 100; 32; 102; 111; 108; 100; 101; 100; 32; 86] (N.lor HF_FOLDING HF_DEFORMED_EOL)))).
Proof. vm_compute. reflexivity. Qed.
Example test_header_31 : h_header SReq false [75; 58; 100; 101; 102; 111; 114; 109; 101; 100; 32; 102; 111; 108; 100; 101; 100; 10; 13; 32; 86; 13; 10; 13; 10] = Some (POk [13; 32; 86; 13; 10; 13; 10] (mk_ph (hf_new [75] 0) (hf_new [100; 101; 102; 111; 114; 109; 101; 100; 32; 102; 111; 108; 100; 101; 100] 0))).
Proof. vm_compute. reflexivity. Qed.
Example test_header_32 : h_header SResp false [75; 58; 100; 101; 102; 111; 114; 109; 101; 100; 32; 102; 111; 108; 100; 101; 100; 10; 13; 32; 86; 13; 10; 13; 10] = Some (POk [13; 10] (mk_ph (hf_new [75] 0) (hf_new [100; 101; 102; 111; 114; 109; 101; 100; 32; 102; 111; 108; 100; 101; 100; 32; 86] HF_FOLDING))).
Proof. vm_compute. reflexivity. Qed.
Example test_header_33 : h_header SReq false [75; 58; 100; 101; 102; 111; 114; 109; 101; 100; 32; 102; 111; 108; 100; 101; 100; 10; 13; 13; 32; 86; 13; 10; 13; 10] = Some (POk [13; 13; 32; 86; 13; 10; 13; 10] (mk_ph (hf_new [75] 0) (hf_new [100; 101; 102; 111; 114; 109; 101; 100; 32; 102; 111; 108; 100; 101; 100] 0))).
Proof. vm_compute. reflexivity. Qed.
Example test_header_34 : h_header SResp false [75; 58; 100; 101; 102; 111; 114; 109; 101; 100; 32; 102; 111; 108; 100; 101; 100; 10; 13; 13; 32; 86; 13; 10; 13; 10] = Some (POk [13; 32; 86; 13; 10; 13; 10] (mk_ph (hf_new [75] 0) (hf_new [100; 101; 102; 111; 114; 109; 101; 100; 32; 102; 111; 108; 100; 101; 100] 0))).
Proof. vm_compute. reflexivity. Qed.
Example test_header_35 : h_header SReq false [75; 13; 32; 13; 32; 58; 13; 32; 86; 13; 10; 13; 10] = Some (POk [13; 10] (mk_ph (hf_new [75; 13; 32; 13; 32] (N.lor HF_NAME_NON_TOKEN_CHARS HF_NAME_TRAILING_WHITESPACE)) (hf_new [13; 32; 86] 0))).
Proof. vm_compute. reflexivity. Qed.
Example test_header_36 : h_header SResp false [75; 13; 32; 13; 32; 58; 13; 32; 86; 13; 10; 13; 10] = Some (POk [13; 10] (mk_ph (hf_new [75] (N.lor HF_NAME_NON_TOKEN_CHARS HF_NAME_TRAILING_WHITESPACE)) (hf_new [86] HF_FOLDING))).
Proof. vm_compute. reflexivity. Qed.
Example test_header_37 : h_header SReq false [75; 12; 58; 86; 97; 108; 117; 101; 13; 10; 32; 86; 13; 10; 13; 10] = Some (POk [13; 10] (mk_ph (hf_new [75; 12] HF_NAME_NON_TOKEN_CHARS) (hf_new [86; 97; 108; 117; 101; 32; 86] HF_FOLDING))).
Proof. vm_compute. reflexivity. Qed.
Example test_header_38 : h_header SResp false [75; 12; 58; 86; 97; 108; 117; 101; 13; 10; 32; 86; 13; 10; 13; 10] = Some (POk [13; 10] (mk_ph (hf_new [75; 12] HF_NAME_NON_TOKEN_CHARS) (hf_new [86; 97; 108; 117; 101; 32; 86] HF_FOLDING))).
Proof. vm_compute. reflexivity. Qed.
Example test_header_39 : h_header SReq false [75; 13; 32; 58; 86; 97; 108; 117; 101; 13; 10; 32; 86; 13; 10; 13; 10] = Some (POk [13; 10] (mk_ph (hf_new [75; 13; 32] (N.lor HF_NAME_TRAILING_WHITESPACE HF_NAME_NON_TOKEN_CHARS)) (hf_new [86; 97; 108; 117; 101; 32; 86] HF_FOLDING))).
Proof. vm_compute. reflexivity. Qed.
Example test_header_40 : h_header SResp false [75; 13; 32; 58; 86; 97; 108; 117; 101; 13; 10; 32; 86; 13; 10; 13; 10] = Some (POk [13; 10] (mk_ph (hf_new [75; 13; 32] (N.lor HF_NAME_TRAILING_WHITESPACE HF_NAME_NON_TOKEN_CHARS)) (hf_new [86; 97; 108; 117; 101; 32; 86] HF_FOLDING))).
Proof. vm_compute. reflexivity. Qed.
Example test_token_chars_1 : token_chars [110; 97; 109; 101] = PInc.
Proof. vm_compute. reflexivity. Qed.
Example test_token_chars_2 : token_chars [110; 97; 109; 101; 58] = (POk [58] ([], [110; 97; 109; 101], [])).
Proof. vm_compute. reflexivity. Qed.
Example test_token_chars_3 : token_chars [110; 97; 109; 101; 32; 58] = (POk [58] ([], [110; 97; 109; 101], [32])).
Proof. vm_compute. reflexivity. Qed.
Example test_token_chars_4 : token_chars [32; 110; 97; 109; 101; 32; 58] = (POk [58] ([32], [110; 97; 109; 101], [32])).
Proof. vm_compute. reflexivity. Qed.
Example test_name_1 : h_name [72; 101; 108; 108; 111; 58; 32; 119; 111; 114; 108; 100] = (POk [58; 32; 119; 111; 114; 108; 100] (mk_hf [72; 101; 108; 108; 111] 0)).
Proof. vm_compute. reflexivity. Qed.
Example test_name_2 : h_name [72; 111; 115; 116; 58; 119; 119; 119; 46; 103; 111; 111; 103; 108; 101; 46; 99; 111; 109; 13; 78; 97; 109; 101; 58; 32; 86; 97; 108; 117; 101] = (POk [58; 119; 119; 119; 46; 103; 111; 111; 103; 108; 101; 46; 99; 111; 109; 13; 78; 97; 109; 101; 58; 32; 86; 97; 108; 117; 101] (mk_hf [72; 111; 115; 116] 0)).
Proof. vm_compute. reflexivity. Qed.
Example test_name_3 : h_name [72; 101; 108; 108; 111; 32; 58; 32; 119; 111; 114; 108; 100] = (POk [58; 32; 119; 111; 114; 108; 100] (mk_hf [72; 101; 108; 108; 111] HF_NAME_TRAILING_WHITESPACE)).
Proof. vm_compute. reflexivity. Qed.
Example test_name_4 : h_name [32; 72; 101; 108; 108; 111; 32; 58; 32; 119; 111; 114; 108; 100] = (POk [58; 32; 119; 111; 114; 108; 100] (mk_hf [72; 101; 108; 108; 111] (N.lor HF_NAME_LEADING_WHITESPACE HF_NAME_TRAILING_WHITESPACE))).
Proof. vm_compute. reflexivity. Qed.
Example test_name_5 : h_name [72; 101; 108; 108; 111; 59; 105; 110; 118; 97; 108; 105; 100; 58; 32; 119; 111; 114; 108; 100] = (POk [58; 32; 119; 111; 114; 108; 100] (mk_hf [72; 101; 108; 108; 111; 59; 105; 110; 118; 97; 108; 105; 100] HF_NAME_NON_TOKEN_CHARS)).
Proof. vm_compute. reflexivity. Qed.
Example test_name_6 : h_name [72; 101; 108; 108; 111; 32; 105; 110; 118; 97; 108; 105; 100; 58; 32; 119; 111; 114; 108; 100] = (POk [58; 32; 119; 111; 114; 108; 100] (mk_hf [72; 101; 108; 108; 111; 32; 105; 110; 118; 97; 108; 105; 100] HF_NAME_NON_TOKEN_CHARS)).
Proof. vm_compute. reflexivity. Qed.
Example test_name_7 : h_name [32; 72; 101; 108; 108; 111; 32; 105; 110; 118; 97; 108; 105; 100; 32; 58; 32; 119; 111; 114; 108; 100] = (POk [58; 32; 119; 111; 114; 108; 100] (mk_hf [72; 101; 108; 108; 111; 32; 105; 110; 118; 97; 108; 105; 100] (N.lor (N.lor HF_NAME_LEADING_WHITESPACE HF_NAME_TRAILING_WHITESPACE) HF_NAME_NON_TOKEN_CHARS))).
Proof. vm_compute. reflexivity. Qed.
Example test_name_8 : h_name [32; 32; 32; 58; 32; 119; 111; 114; 108; 100] = (POk [58; 32; 119; 111; 114; 108; 100] (mk_hf [] (N.lor HF_NAME_LEADING_WHITESPACE HF_NAME_TRAILING_WHITESPACE))).
Proof. vm_compute. reflexivity. Qed.
Example test_null_1 : h_null [116; 101; 115; 116] = PErr.
Proof. vm_compute. reflexivity. Qed.
Example test_null_2 : h_null [13; 10] = PErr.
Proof. vm_compute. reflexivity. Qed.
Example test_null_3 : h_null [10] = PErr.
Proof. vm_compute. reflexivity. Qed.
Example test_null_4 : h_null [0; 97] = (POk [97] ([0], HF_NULL_TERMINATED)).
Proof. vm_compute. reflexivity. Qed.
Example test_eol_1 : h_eol SReq [116; 101; 115; 116] = PErr.
Proof. vm_compute. reflexivity. Qed.
Example test_eol_2 : h_eol SResp [116; 101; 115; 116] = PErr.
Proof. vm_compute. reflexivity. Qed.
Example test_eol_3 : h_eol SReq [13; 10] = PInc.
Proof. vm_compute. reflexivity. Qed.
Example test_eol_4 : h_eol SResp [13; 10] = PInc.
Proof. vm_compute. reflexivity. Qed.
Example test_eol_5 : h_eol SReq [10] = PInc.
Proof. vm_compute. reflexivity. Qed.
Example test_eol_6 : h_eol SResp [10] = PInc.
Proof. vm_compute. reflexivity. Qed.
Example test_eol_7 : h_eol SReq [13; 10; 9] = PErr.
Proof. vm_compute. reflexivity. Qed.
Example test_eol_8 : h_eol SResp [13; 10; 9] = PErr.
Proof. vm_compute. reflexivity. Qed.
Example test_eol_9 : h_eol SReq [13; 97] = PErr.
Proof. vm_compute. reflexivity. Qed.
Example test_eol_10 : h_eol SResp [13; 97] = (POk [97] ([13], 0)).
Proof. vm_compute. reflexivity. Qed.
Example test_eol_11 : h_eol SReq [13; 13] = PErr.
Proof. vm_compute. reflexivity. Qed.
Example test_eol_12 : h_eol SResp [13; 13] = (POk [13] ([13], 0)).
Proof. vm_compute. reflexivity. Qed.
Example test_eol_13 : h_eol SReq [10; 13] = (POk [13] ([10], 0)).
Proof. vm_compute. reflexivity. Qed.
Example test_eol_14 : h_eol SResp [10; 13] = PInc.
Proof. vm_compute. reflexivity. Qed.
Example test_eol_15 : h_eol SReq [10; 13; 97] = (POk [13; 97] ([10], 0)).
Proof. vm_compute. reflexivity. Qed.
Example test_eol_16 : h_eol SResp [10; 13; 97] = (POk [97] ([10; 13], 0)).
Proof. vm_compute. reflexivity. Qed.
Example test_eol_17 : h_eol SReq [10; 13; 10] = (POk [13; 10] ([10], 0)).
Proof. vm_compute. reflexivity. Qed.
Example test_eol_18 : h_eol SResp [10; 13; 10] = (POk [10] ([10; 13], 0)).
Proof. vm_compute. reflexivity. Qed.
Example test_eol_19 : h_eol SReq [10; 13; 10; 13] = (POk [13; 10; 13] ([10], 0)).
Proof. vm_compute. reflexivity. Qed.
Example test_eol_20 : h_eol SResp [10; 13; 10; 13] = (POk [10; 13] ([10; 13], 0)).
Proof. vm_compute. reflexivity. Qed.
Example test_eol_21 : h_eol SReq [10; 97] = (POk [97] ([10], 0)).
Proof. vm_compute. reflexivity. Qed.
Example test_eol_22 : h_eol SResp [10; 97] = (POk [97] ([10], 0)).
Proof. vm_compute. reflexivity. Qed.
Example test_eol_23 : h_eol SReq [10; 13; 13; 10; 97] = (POk [13; 10; 97] ([10; 13], HF_DEFORMED_EOL)).
Proof. vm_compute. reflexivity. Qed.
Example test_eol_24 : h_eol SResp [10; 13; 13; 10; 97] = (POk [13; 10; 97] ([10; 13], 0)).
Proof. vm_compute. reflexivity. Qed.
Example test_eol_25 : h_eol SReq [13; 10; 13; 10; 97] = (POk [13; 10; 97] ([13; 10], 0)).
Proof. vm_compute. reflexivity. Qed.
Example test_eol_26 : h_eol SResp [13; 10; 13; 10; 97] = (POk [13; 10; 97] ([13; 10], 0)).
Proof. vm_compute. reflexivity. Qed.
Example test_eol_27 : h_eol SReq [13; 10] = PInc.
Proof. vm_compute. reflexivity. Qed.
Example test_eol_28 : h_eol SResp [13; 10] = PInc.
Proof. vm_compute. reflexivity. Qed.
Example test_eol_29 : h_eol SReq [10] = PInc.
Proof. vm_compute. reflexivity. Qed.
Example test_eol_30 : h_eol SResp [10] = PInc.
Proof. vm_compute. reflexivity. Qed.
Example test_eol_31 : h_eol SReq [10; 13; 13; 10] = (POk [13; 10] ([10; 13], HF_DEFORMED_EOL)).
Proof. vm_compute. reflexivity. Qed.
Example test_eol_32 : h_eol SResp [10; 13; 13; 10] = (POk [13; 10] ([10; 13], 0)).
Proof. vm_compute. reflexivity. Qed.
Example test_eol_33 : h_eol SReq [13; 10; 13; 10] = (POk [13; 10] ([13; 10], 0)).
Proof. vm_compute. reflexivity. Qed.
Example test_eol_34 : h_eol SResp [13; 10; 13; 10] = (POk [13; 10] ([13; 10], 0)).
Proof. vm_compute. reflexivity. Qed.
Example test_eol_35 : h_eol SReq [0; 97] = PErr.
Proof. vm_compute. reflexivity. Qed.
Example test_eol_36 : h_eol SResp [0; 97] = PErr.
Proof. vm_compute. reflexivity. Qed.
Example test_null_or_eol_1 : null_or_eol SReq [116; 101; 115; 116] = PErr.
Proof. vm_compute. reflexivity. Qed.
Example test_null_or_eol_2 : null_or_eol SResp [116; 101; 115; 116] = PErr.
Proof. vm_compute. reflexivity. Qed.
Example test_null_or_eol_3 : null_or_eol SReq [13; 10] = PInc.
Proof. vm_compute. reflexivity. Qed.
Example test_null_or_eol_4 : null_or_eol SResp [13; 10] = PInc.
Proof. vm_compute. reflexivity. Qed.
Example test_null_or_eol_5 : null_or_eol SReq [10] = PInc.
Proof. vm_compute. reflexivity. Qed.
Example test_null_or_eol_6 : null_or_eol SResp [10] = PInc.
Proof. vm_compute. reflexivity. Qed.
Example test_null_or_eol_7 : null_or_eol SReq [13; 10; 9] = PErr.
Proof. vm_compute. reflexivity. Qed.
Example test_null_or_eol_8 : null_or_eol SResp [13; 10; 9] = PErr.
Proof. vm_compute. reflexivity. Qed.
Example test_null_or_eol_9 : null_or_eol SReq [13; 97] = PErr.
Proof. vm_compute. reflexivity. Qed.
Example test_null_or_eol_10 : null_or_eol SResp [13; 97] = (POk [97] ([13], 0)).
Proof. vm_compute. reflexivity. Qed.
Example test_null_or_eol_11 : null_or_eol SReq [13; 13] = PErr.
Proof. vm_compute. reflexivity. Qed.
Example test_null_or_eol_12 : null_or_eol SResp [13; 13] = (POk [13] ([13], 0)).
Proof. vm_compute. reflexivity. Qed.
Example test_null_or_eol_13 : null_or_eol SReq [10; 13] = (POk [13] ([10], 0)).
Proof. vm_compute. reflexivity. Qed.
Example test_null_or_eol_14 : null_or_eol SResp [10; 13] = PInc.
Proof. vm_compute. reflexivity. Qed.
Example test_null_or_eol_15 : null_or_eol SReq [10; 13; 97] = (POk [13; 97] ([10], 0)).
Proof. vm_compute. reflexivity. Qed.
Example test_null_or_eol_16 : null_or_eol SResp [10; 13; 97] = (POk [97] ([10; 13], 0)).
Proof. vm_compute. reflexivity. Qed.
Example test_null_or_eol_17 : null_or_eol SReq [10; 13; 10] = (POk [13; 10] ([10], 0)).
Proof. vm_compute. reflexivity. Qed.
Example test_null_or_eol_18 : null_or_eol SResp [10; 13; 10] = (POk [10] ([10; 13], 0)).
Proof. vm_compute. reflexivity. Qed.
Example test_null_or_eol_19 : null_or_eol SReq [10; 13; 10; 13] = (POk [13; 10; 13] ([10], 0)).
Proof. vm_compute. reflexivity. Qed.
Example test_null_or_eol_20 : null_or_eol SResp [10; 13; 10; 13] = (POk [10; 13] ([10; 13], 0)).
Proof. vm_compute. reflexivity. Qed.
Example test_null_or_eol_21 : null_or_eol SReq [10; 97] = (POk [97] ([10], 0)).
Proof. vm_compute. reflexivity. Qed.
Example test_null_or_eol_22 : null_or_eol SResp [10; 97] = (POk [97] ([10], 0)).
Proof. vm_compute. reflexivity. Qed.
Example test_null_or_eol_23 : null_or_eol SReq [10; 13; 13; 10; 97] = (POk [13; 10; 97] ([10; 13], HF_DEFORMED_EOL)).
Proof. vm_compute. reflexivity. Qed.
Example test_null_or_eol_24 : null_or_eol SResp [10; 13; 13; 10; 97] = (POk [13; 10; 97] ([10; 13], 0)).
Proof. vm_compute. reflexivity. Qed.
Example test_null_or_eol_25 : null_or_eol SReq [13; 10; 13; 10; 97] = (POk [13; 10; 97] ([13; 10], 0)).
Proof. vm_compute. reflexivity. Qed.
Example test_null_or_eol_26 : null_or_eol SResp [13; 10; 13; 10; 97] = (POk [13; 10; 97] ([13; 10], 0)).
Proof. vm_compute. reflexivity. Qed.
Example test_null_or_eol_27 : null_or_eol SReq [13; 10] = PInc.
Proof. vm_compute. reflexivity. Qed.
Example test_null_or_eol_28 : null_or_eol SResp [13; 10] = PInc.
Proof. vm_compute. reflexivity. Qed.
Example test_null_or_eol_29 : null_or_eol SReq [10] = PInc.
Proof. vm_compute. reflexivity. Qed.
Example test_null_or_eol_30 : null_or_eol SResp [10] = PInc.
Proof. vm_compute. reflexivity. Qed.
Example test_null_or_eol_31 : null_or_eol SReq [10; 13; 13; 10] = (POk [13; 10] ([10; 13], HF_DEFORMED_EOL)).
Proof. vm_compute. reflexivity. Qed.
Example test_null_or_eol_32 : null_or_eol SResp [10; 13; 13; 10] = (POk [13; 10] ([10; 13], 0)).
Proof. vm_compute. reflexivity. Qed.
Example test_null_or_eol_33 : null_or_eol SReq [13; 10; 13; 10] = (POk [13; 10] ([13; 10], 0)).
Proof. vm_compute. reflexivity. Qed.
Example test_null_or_eol_34 : null_or_eol SResp [13; 10; 13; 10] = (POk [13; 10] ([13; 10], 0)).
Proof. vm_compute. reflexivity. Qed.
Example test_null_or_eol_35 : null_or_eol SReq [0; 97] = (POk [97] ([0], HF_NULL_TERMINATED)).
Proof. vm_compute. reflexivity. Qed.
Example test_null_or_eol_36 : null_or_eol SResp [0; 97] = (POk [97] ([0], HF_NULL_TERMINATED)).
Proof. vm_compute. reflexivity. Qed.
Example test_folding_1 : folding SReq [116; 101; 115; 116] = PErr.
Proof. vm_compute. reflexivity. Qed.
Example test_folding_2 : folding SResp [116; 101; 115; 116] = PErr.
Proof. vm_compute. reflexivity. Qed.
Example test_folding_3 : folding SReq [13] = PErr.
Proof. vm_compute. reflexivity. Qed.
Example test_folding_4 : folding SResp [13] = PInc.
Proof. vm_compute. reflexivity. Qed.
Example test_folding_5 : folding SReq [13; 13] = PErr.
Proof. vm_compute. reflexivity. Qed.
Example test_folding_6 : folding SResp [13; 13] = PErr.
Proof. vm_compute. reflexivity. Qed.
Example test_folding_7 : folding SReq [13; 10] = PInc.
Proof. vm_compute. reflexivity. Qed.
Example test_folding_8 : folding SResp [13; 10] = PInc.
Proof. vm_compute. reflexivity. Qed.
Example test_folding_9 : folding SReq [13; 10; 9] = (POk [] ([13; 10], [9], HF_FOLDING)).
Proof. vm_compute. reflexivity. Qed.
Example test_folding_10 : folding SResp [13; 10; 9] = (POk [] ([13; 10], [9], HF_FOLDING)).
Proof. vm_compute. reflexivity. Qed.
Example test_folding_11 : folding SReq [13; 10; 32; 9] = (POk [9] ([13; 10], [32], HF_FOLDING)).
Proof. vm_compute. reflexivity. Qed.
Example test_folding_12 : folding SResp [13; 10; 32; 9] = (POk [9] ([13; 10], [32], HF_FOLDING)).
Proof. vm_compute. reflexivity. Qed.
Example test_folding_13 : folding SReq [13; 10; 13] = PErr.
Proof. vm_compute. reflexivity. Qed.
Example test_folding_14 : folding SResp [13; 10; 13] = PErr.
Proof. vm_compute. reflexivity. Qed.
Example test_folding_15 : folding SReq [13; 10; 13; 10] = PErr.
Proof. vm_compute. reflexivity. Qed.
Example test_folding_16 : folding SResp [13; 10; 13; 10] = PErr.
Proof. vm_compute. reflexivity. Qed.
Example test_folding_17 : folding SReq [13; 10; 13; 13] = PErr.
Proof. vm_compute. reflexivity. Qed.
Example test_folding_18 : folding SResp [13; 10; 13; 13] = PErr.
Proof. vm_compute. reflexivity. Qed.
Example test_folding_19 : folding SReq [13; 10; 32; 110; 101; 120; 116] = (POk [110; 101; 120; 116] ([13; 10], [32], HF_FOLDING)).
Proof. vm_compute. reflexivity. Qed.
Example test_folding_20 : folding SResp [13; 10; 32; 110; 101; 120; 116] = (POk [110; 101; 120; 116] ([13; 10], [32], HF_FOLDING)).
Proof. vm_compute. reflexivity. Qed.
Example test_folding_21 : folding SReq [13; 10; 9; 110; 101; 120; 116] = (POk [110; 101; 120; 116] ([13; 10], [9], HF_FOLDING)).
Proof. vm_compute. reflexivity. Qed.
Example test_folding_22 : folding SResp [13; 10; 9; 110; 101; 120; 116] = (POk [110; 101; 120; 116] ([13; 10], [9], HF_FOLDING)).
Proof. vm_compute. reflexivity. Qed.
Example test_folding_23 : folding SReq [13; 10; 9; 32; 110; 101; 120; 116] = (POk [32; 110; 101; 120; 116] ([13; 10], [9], HF_FOLDING)).
Proof. vm_compute. reflexivity. Qed.
Example test_folding_24 : folding SResp [13; 10; 9; 32; 110; 101; 120; 116] = (POk [32; 110; 101; 120; 116] ([13; 10], [9], HF_FOLDING)).
Proof. vm_compute. reflexivity. Qed.
Example test_folding_25 : folding SReq [13; 10; 9; 9; 13; 10] = (POk [9; 13; 10] ([13; 10], [9], HF_FOLDING)).
Proof. vm_compute. reflexivity. Qed.
Example test_folding_26 : folding SResp [13; 10; 9; 9; 13; 10] = (POk [9; 13; 10] ([13; 10], [9], HF_FOLDING)).
Proof. vm_compute. reflexivity. Qed.
Example test_folding_27 : folding SReq [13; 10; 9; 32; 9; 13] = (POk [32; 9; 13] ([13; 10], [9], HF_FOLDING)).
Proof. vm_compute. reflexivity. Qed.
Example test_folding_28 : folding SResp [13; 10; 9; 32; 9; 13] = (POk [32; 9; 13] ([13; 10], [9], HF_FOLDING)).
Proof. vm_compute. reflexivity. Qed.
Example test_folding_29 : folding SReq [13; 10; 32; 32; 32; 32; 32; 10] = (POk [32; 32; 32; 32; 10] ([13; 10], [32], HF_FOLDING)).
Proof. vm_compute. reflexivity. Qed.
Example test_folding_30 : folding SResp [13; 10; 32; 32; 32; 32; 32; 10] = (POk [32; 32; 32; 32; 10] ([13; 10], [32], HF_FOLDING)).
Proof. vm_compute. reflexivity. Qed.
Example test_folding_31 : folding SReq [10; 13; 32; 32; 32; 32; 32; 10] = PErr.
Proof. vm_compute. reflexivity. Qed.
Example test_folding_32 : folding SResp [10; 13; 32; 32; 32; 32; 32; 10] = (POk [32; 32; 32; 32; 10] ([10; 13], [32], HF_FOLDING)).
Proof. vm_compute. reflexivity. Qed.
Example test_folding_33 : folding SReq [13; 10; 13; 110; 101; 120; 116] = PErr.
Proof. vm_compute. reflexivity. Qed.
Example test_folding_34 : folding SResp [13; 10; 13; 110; 101; 120; 116] = PErr.
Proof. vm_compute. reflexivity. Qed.
Example test_folding_35 : folding SReq [13; 10; 13; 9; 32; 110; 101; 120; 116] = PErr.
Proof. vm_compute. reflexivity. Qed.
Example test_folding_36 : folding SResp [13; 10; 13; 9; 32; 110; 101; 120; 116] = PErr.
Proof. vm_compute. reflexivity. Qed.
Example test_folding_37 : folding SReq [13; 32; 32; 32; 32; 104; 101; 108; 108; 111; 32; 10] = PErr.
Proof. vm_compute. reflexivity. Qed.
Example test_folding_38 : folding SResp [13; 32; 32; 32; 32; 104; 101; 108; 108; 111; 32; 10] = (POk [32; 32; 32; 104; 101; 108; 108; 111; 32; 10] ([13], [32], HF_FOLDING)).
Proof. vm_compute. reflexivity. Qed.
Example test_folding_or_terminator_1 : folding_or_terminator SReq false [13; 10] = PInc.
Proof. vm_compute. reflexivity. Qed.
Example test_folding_or_terminator_2 : folding_or_terminator SResp false [13; 10] = PInc.
Proof. vm_compute. reflexivity. Qed.
Example test_folding_or_terminator_3 : folding_or_terminator SReq false [13; 10; 9] = (POk [] (([13; 10], HF_FOLDING), (Some [9]))).
Proof. vm_compute. reflexivity. Qed.
Example test_folding_or_terminator_4 : folding_or_terminator SResp false [13; 10; 9] = (POk [] (([13; 10], HF_FOLDING), (Some [9]))).
Proof. vm_compute. reflexivity. Qed.
Example test_folding_or_terminator_5 : folding_or_terminator SReq false [13; 10; 32] = (POk [] (([13; 10], HF_FOLDING), (Some [32]))).
Proof. vm_compute. reflexivity. Qed.
Example test_folding_or_terminator_6 : folding_or_terminator SResp false [13; 10; 32] = (POk [] (([13; 10], HF_FOLDING), (Some [32]))).
Proof. vm_compute. reflexivity. Qed.
Example test_folding_or_terminator_7 : folding_or_terminator SReq false [13; 10; 13] = (POk [13] (([13; 10], 0), None)).
Proof. vm_compute. reflexivity. Qed.
Example test_folding_or_terminator_8 : folding_or_terminator SResp false [13; 10; 13] = PInc.
Proof. vm_compute. reflexivity. Qed.
Example test_folding_or_terminator_9 : folding_or_terminator SReq false [13; 13] = PErr.
Proof. vm_compute. reflexivity. Qed.
Example test_folding_or_terminator_10 : folding_or_terminator SResp false [13; 13] = (POk [13] (([13], 0), None)).
Proof. vm_compute. reflexivity. Qed.
Example test_folding_or_terminator_11 : folding_or_terminator SReq false [13; 10; 9; 97] = (POk [97] (([13; 10], HF_FOLDING), (Some [9]))).
Proof. vm_compute. reflexivity. Qed.
Example test_folding_or_terminator_12 : folding_or_terminator SResp false [13; 10; 9; 97] = (POk [97] (([13; 10], HF_FOLDING), (Some [9]))).
Proof. vm_compute. reflexivity. Qed.
Example test_folding_or_terminator_13 : folding_or_terminator SReq false [13; 10; 13; 97] = (POk [13; 97] (([13; 10], 0), None)).
Proof. vm_compute. reflexivity. Qed.
Example test_folding_or_terminator_14 : folding_or_terminator SResp false [13; 10; 13; 97] = (POk [13; 97] (([13; 10], 0), None)).
Proof. vm_compute. reflexivity. Qed.
Example test_folding_or_terminator_15 : folding_or_terminator SReq false [13; 10; 32; 97] = (POk [97] (([13; 10], HF_FOLDING), (Some [32]))).
Proof. vm_compute. reflexivity. Qed.
Example test_folding_or_terminator_16 : folding_or_terminator SResp false [13; 10; 32; 97] = (POk [97] (([13; 10], HF_FOLDING), (Some [32]))).
Proof. vm_compute. reflexivity. Qed.
Example test_folding_or_terminator_17 : folding_or_terminator SReq false [13; 10; 97] = (POk [97] (([13; 10], 0), None)).
Proof. vm_compute. reflexivity. Qed.
Example test_folding_or_terminator_18 : folding_or_terminator SResp false [13; 10; 97] = (POk [97] (([13; 10], 0), None)).
Proof. vm_compute. reflexivity. Qed.
Example test_folding_or_terminator_19 : folding_or_terminator SReq false [10; 10; 97] = (POk [10; 97] (([10], 0), None)).
Proof. vm_compute. reflexivity. Qed.
Example test_folding_or_terminator_20 : folding_or_terminator SResp false [10; 10; 97] = (POk [10; 97] (([10], 0), None)).
Proof. vm_compute. reflexivity. Qed.
Example test_folding_or_terminator_21 : folding_or_terminator SReq false [13; 10; 13; 10; 97] = (POk [13; 10; 97] (([13; 10], 0), None)).
Proof. vm_compute. reflexivity. Qed.
Example test_folding_or_terminator_22 : folding_or_terminator SResp false [13; 10; 13; 10; 97] = (POk [13; 10; 97] (([13; 10], 0), None)).
Proof. vm_compute. reflexivity. Qed.
Example test_folding_or_terminator_23 : folding_or_terminator SReq false [10; 13; 13; 10; 97] = (POk [13; 10; 97] (([10; 13], HF_DEFORMED_EOL), None)).
Proof. vm_compute. reflexivity. Qed.
Example test_folding_or_terminator_24 : folding_or_terminator SResp false [10; 13; 13; 10; 97] = (POk [13; 10; 97] (([10; 13], 0), None)).
Proof. vm_compute. reflexivity. Qed.
Example test_folding_or_terminator_25 : folding_or_terminator SReq false [0; 97] = (POk [97] (([0], HF_NULL_TERMINATED), None)).
Proof. vm_compute. reflexivity. Qed.
Example test_folding_or_terminator_26 : folding_or_terminator SResp false [0; 97] = (POk [97] (([0], HF_NULL_TERMINATED), None)).
Proof. vm_compute. reflexivity. Qed.
Example test_folding_or_terminator_27 : folding_or_terminator SReq false [13; 32; 97] = PErr.
Proof. vm_compute. reflexivity. Qed.
Example test_folding_or_terminator_28 : folding_or_terminator SResp false [13; 32; 97] = (POk [97] (([13], HF_FOLDING), (Some [32]))).
Proof. vm_compute. reflexivity. Qed.
Example test_folding_or_terminator_29 : folding_or_terminator SReq false [10; 32; 32; 13; 10; 10] = (POk [32; 13; 10; 10] (([10], HF_FOLDING), (Some [32]))).
Proof. vm_compute. reflexivity. Qed.
Example test_folding_or_terminator_30 : folding_or_terminator SResp false [10; 32; 32; 13; 10; 10] = (POk [32; 13; 10; 10] (([10], HF_FOLDING), (Some [32]))).
Proof. vm_compute. reflexivity. Qed.
Example test_value_bytes_1 : value_bytes SReq false [32] = PInc.
Proof. vm_compute. reflexivity. Qed.
Example test_value_bytes_2 : value_bytes SResp false [32] = PInc.
Proof. vm_compute. reflexivity. Qed.
Example test_value_bytes_3 : value_bytes SReq false [118; 97; 108; 117; 101] = PInc.
Proof. vm_compute. reflexivity. Qed.
Example test_value_bytes_4 : value_bytes SResp false [118; 97; 108; 117; 101] = PInc.
Proof. vm_compute. reflexivity. Qed.
Example test_value_bytes_5 : value_bytes SReq false [9; 118; 97; 108; 117; 101] = PInc.
Proof. vm_compute. reflexivity. Qed.
Example test_value_bytes_6 : value_bytes SResp false [9; 118; 97; 108; 117; 101] = PInc.
Proof. vm_compute. reflexivity. Qed.
Example test_value_bytes_7 : value_bytes SReq false [32; 118; 97; 108; 117; 101] = PInc.
Proof. vm_compute. reflexivity. Qed.
Example test_value_bytes_8 : value_bytes SResp false [32; 118; 97; 108; 117; 101] = PInc.
Proof. vm_compute. reflexivity. Qed.
Example test_value_bytes_9 : value_bytes SReq false [118; 97; 108; 117; 101; 13; 10] = PInc.
Proof. vm_compute. reflexivity. Qed.
Example test_value_bytes_10 : value_bytes SResp false [118; 97; 108; 117; 101; 13; 10] = PInc.
Proof. vm_compute. reflexivity. Qed.
Example test_value_bytes_11 : value_bytes SReq false [13; 13] = PInc.
Proof. vm_compute. reflexivity. Qed.
Example test_value_bytes_12 : value_bytes SResp false [13; 13] = (POk [13] ([], (([13], 0), None))).
Proof. vm_compute. reflexivity. Qed.
Example test_value_bytes_13 : value_bytes SReq false [119; 119; 119; 46; 103; 111; 111; 103; 108; 101; 46; 99; 111; 109; 13; 78; 97; 109; 101; 58; 32; 86; 97; 108; 117; 101; 13; 10; 13; 10] = (POk [13; 10] ([119; 119; 119; 46; 103; 111; 111; 103; 108; 101; 46; 99; 111; 109; 13; 78; 97; 109; 101; 58; 32; 86; 97; 108; 117; 101], (([13; 10], 0), None))).
Proof. vm_compute. reflexivity. Qed.
Example test_value_bytes_14 : value_bytes SResp false [119; 119; 119; 46; 103; 111; 111; 103; 108; 101; 46; 99; 111; 109; 13; 78; 97; 109; 101; 58; 32; 86; 97; 108; 117; 101; 13; 10; 13; 10] = (POk [78; 97; 109; 101; 58; 32; 86; 97; 108; 117; 101; 13; 10; 13; 10] ([119; 119; 119; 46; 103; 111; 111; 103; 108; 101; 46; 99; 111; 109], (([13], 0), None))).
Proof. vm_compute. reflexivity. Qed.
Example test_value_bytes_15 : value_bytes SReq false [119; 119; 119; 46; 103; 111; 111; 103; 108; 101; 46; 99; 111; 109; 13; 78; 97; 109; 101; 58; 32; 86; 97; 108; 117; 101; 10; 13; 10] = (POk [13; 10] ([119; 119; 119; 46; 103; 111; 111; 103; 108; 101; 46; 99; 111; 109; 13; 78; 97; 109; 101; 58; 32; 86; 97; 108; 117; 101], (([10], 0), None))).
Proof. vm_compute. reflexivity. Qed.
Example test_value_bytes_16 : value_bytes SResp false [119; 119; 119; 46; 103; 111; 111; 103; 108; 101; 46; 99; 111; 109; 13; 78; 97; 109; 101; 58; 32; 86; 97; 108; 117; 101; 10; 13; 10] = (POk [78; 97; 109; 101; 58; 32; 86; 97; 108; 117; 101; 10; 13; 10] ([119; 119; 119; 46; 103; 111; 111; 103; 108; 101; 46; 99; 111; 109], (([13], 0), None))).
Proof. vm_compute. reflexivity. Qed.
Example test_value_bytes_17 : value_bytes SReq false [119; 119; 119; 46; 103; 111; 111; 103; 108; 101; 46; 99; 111; 109; 13; 78; 97; 109; 101; 58; 32; 86; 97; 108; 117; 101; 13; 10; 10] = (POk [10] ([119; 119; 119; 46; 103; 111; 111; 103; 108; 101; 46; 99; 111; 109; 13; 78; 97; 109; 101; 58; 32; 86; 97; 108; 117; 101], (([13; 10], 0), None))).
Proof. vm_compute. reflexivity. Qed.
Example test_value_bytes_18 : value_bytes SResp false [119; 119; 119; 46; 103; 111; 111; 103; 108; 101; 46; 99; 111; 109; 13; 78; 97; 109; 101; 58; 32; 86; 97; 108; 117; 101; 13; 10; 10] = (POk [78; 97; 109; 101; 58; 32; 86; 97; 108; 117; 101; 13; 10; 10] ([119; 119; 119; 46; 103; 111; 111; 103; 108; 101; 46; 99; 111; 109], (([13], 0), None))).
Proof. vm_compute. reflexivity. Qed.
Example test_value_bytes_19 : value_bytes SReq false [13; 10; 110; 101; 120; 116] = (POk [110; 101; 120; 116] ([], (([13; 10], 0), None))).
Proof. vm_compute. reflexivity. Qed.
Example test_value_bytes_20 : value_bytes SResp false [13; 10; 110; 101; 120; 116] = (POk [110; 101; 120; 116] ([], (([13; 10], 0), None))).
Proof. vm_compute. reflexivity. Qed.
Example test_value_bytes_21 : value_bytes SReq false [118; 97; 108; 117; 101; 13; 10; 110; 97; 109; 101; 50] = (POk [110; 97; 109; 101; 50] ([118; 97; 108; 117; 101], (([13; 10], 0), None))).
Proof. vm_compute. reflexivity. Qed.
Example test_value_bytes_22 : value_bytes SResp false [118; 97; 108; 117; 101; 13; 10; 110; 97; 109; 101; 50] = (POk [110; 97; 109; 101; 50] ([118; 97; 108; 117; 101], (([13; 10], 0), None))).
Proof. vm_compute. reflexivity. Qed.
Example test_value_bytes_23 : value_bytes SReq false [118; 97; 108; 117; 101; 10; 32; 109; 111; 114; 101] = (POk [109; 111; 114; 101] ([118; 97; 108; 117; 101], (([10], HF_FOLDING), (Some [32])))).
Proof. vm_compute. reflexivity. Qed.
Example test_value_bytes_24 : value_bytes SResp false [118; 97; 108; 117; 101; 10; 32; 109; 111; 114; 101] = (POk [109; 111; 114; 101] ([118; 97; 108; 117; 101], (([10], HF_FOLDING), (Some [32])))).
Proof. vm_compute. reflexivity. Qed.
Example test_value_bytes_25 : value_bytes SReq false [118; 97; 108; 117; 101; 13; 10; 9; 32; 109; 111; 114; 101] = (POk [32; 109; 111; 114; 101] ([118; 97; 108; 117; 101], (([13; 10], HF_FOLDING), (Some [9])))).
Proof. vm_compute. reflexivity. Qed.
Example test_value_bytes_26 : value_bytes SResp false [118; 97; 108; 117; 101; 13; 10; 9; 32; 109; 111; 114; 101] = (POk [32; 109; 111; 114; 101] ([118; 97; 108; 117; 101], (([13; 10], HF_FOLDING), (Some [9])))).
Proof. vm_compute. reflexivity. Qed.
Example test_value_bytes_27 : value_bytes SReq false [118; 97; 108; 117; 101; 13; 10; 9; 32; 109; 111; 114; 101] = (POk [32; 109; 111; 114; 101] ([118; 97; 108; 117; 101], (([13; 10], HF_FOLDING), (Some [9])))).
Proof. vm_compute. reflexivity. Qed.
Example test_value_bytes_28 : value_bytes SResp false [118; 97; 108; 117; 101; 13; 10; 9; 32; 109; 111; 114; 101] = (POk [32; 109; 111; 114; 101] ([118; 97; 108; 117; 101], (([13; 10], HF_FOLDING), (Some [9])))).
Proof. vm_compute. reflexivity. Qed.
Example test_value_bytes_29 : value_bytes SReq false [118; 97; 108; 117; 101; 10; 13; 109; 111; 114; 101] = (POk [13; 109; 111; 114; 101] ([118; 97; 108; 117; 101], (([10], 0), None))).
Proof. vm_compute. reflexivity. Qed.
Example test_value_bytes_30 : value_bytes SResp false [118; 97; 108; 117; 101; 10; 13; 109; 111; 114; 101] = (POk [109; 111; 114; 101] ([118; 97; 108; 117; 101], (([10; 13], 0), None))).
Proof. vm_compute. reflexivity. Qed.
Example test_value_bytes_31 : value_bytes SReq false [118; 97; 108; 117; 101; 13; 10; 13; 109; 111; 114; 101] = (POk [13; 109; 111; 114; 101] ([118; 97; 108; 117; 101], (([13; 10], 0), None))).
Proof. vm_compute. reflexivity. Qed.
Example test_value_bytes_32 : value_bytes SResp false [118; 97; 108; 117; 101; 13; 10; 13; 109; 111; 114; 101] = (POk [13; 109; 111; 114; 101] ([118; 97; 108; 117; 101], (([13; 10], 0), None))).
Proof. vm_compute. reflexivity. Qed.
Example test_value_1 : h_value SReq false [118; 97; 108; 117; 101; 13; 10; 32; 109; 111; 114; 101; 13; 10] = Some PInc.
Proof. vm_compute. reflexivity. Qed.
Example test_value_2 : h_value SResp false [118; 97; 108; 117; 101; 13; 10; 32; 109; 111; 114; 101; 13; 10] = Some PInc.
Proof. vm_compute. reflexivity. Qed.
Example test_value_3 : h_value SReq false [118; 97; 108; 117; 101; 13; 10; 32] = Some PInc.
Proof. vm_compute. reflexivity. Qed.
Example test_value_4 : h_value SResp false [118; 97; 108; 117; 101; 13; 10; 32] = Some PInc.
Proof. vm_compute. reflexivity. Qed.
Example test_value_5 : h_value SReq false [118; 97; 108; 117; 101; 13; 10; 32; 109; 111; 114; 101] = Some PInc.
Proof. vm_compute. reflexivity. Qed.
Example test_value_6 : h_value SResp false [118; 97; 108; 117; 101; 13; 10; 32; 109; 111; 114; 101] = Some PInc.
Proof. vm_compute. reflexivity. Qed.
Example test_value_7 : h_value SReq false [118; 97; 108; 117; 101; 13; 10; 32; 109; 111; 114; 101; 10] = Some PInc.
Proof. vm_compute. reflexivity. Qed.
Example test_value_8 : h_value SResp false [118; 97; 108; 117; 101; 13; 10; 32; 109; 111; 114; 101; 10] = Some PInc.
Proof. vm_compute. reflexivity. Qed.
Example test_value_9 : h_value SReq false [118; 97; 108; 117; 101; 10; 32; 109; 111; 114; 101; 13; 10] = Some PInc.
Proof. vm_compute. reflexivity. Qed.
Example test_value_10 : h_value SResp false [118; 97; 108; 117; 101; 10; 32; 109; 111; 114; 101; 13; 10] = Some PInc.
Proof. vm_compute. reflexivity. Qed.
Example test_value_11 : h_value SReq false [13; 10; 32; 118; 97; 108; 117; 101; 32; 32; 32; 32; 13; 10; 110; 101; 120; 116; 58] = Some (POk [110; 101; 120; 116; 58] (mk_hf [118; 97; 108; 117; 101] HF_FOLDING)).
Proof. vm_compute. reflexivity. Qed.
Example test_value_12 : h_value SResp false [13; 10; 32; 118; 97; 108; 117; 101; 32; 32; 32; 32; 13; 10; 110; 101; 120; 116; 58] = Some (POk [110; 101; 120; 116; 58] (mk_hf [118; 97; 108; 117; 101] HF_FOLDING)).
Proof. vm_compute. reflexivity. Qed.
Example test_value_13 : h_value SReq false [13; 10; 32; 118; 97; 108; 117; 101; 13; 10; 110; 101; 120; 116; 58] = Some (POk [110; 101; 120; 116; 58] (mk_hf [118; 97; 108; 117; 101] HF_FOLDING)).
Proof. vm_compute. reflexivity. Qed.
Example test_value_14 : h_value SResp false [13; 10; 32; 118; 97; 108; 117; 101; 13; 10; 110; 101; 120; 116; 58] = Some (POk [110; 101; 120; 116; 58] (mk_hf [118; 97; 108; 117; 101] HF_FOLDING)).
Proof. vm_compute. reflexivity. Qed.
Example test_value_15 : h_value SReq false [118; 97; 108; 117; 101; 13; 10; 32; 109; 111; 114; 101; 13; 10; 13; 10] = Some (POk [13; 10] (mk_hf [118; 97; 108; 117; 101; 32; 109; 111; 114; 101] HF_FOLDING)).
Proof. vm_compute. reflexivity. Qed.
Example test_value_16 : h_value SResp false [118; 97; 108; 117; 101; 13; 10; 32; 109; 111; 114; 101; 13; 10; 13; 10] = Some (POk [13; 10] (mk_hf [118; 97; 108; 117; 101; 32; 109; 111; 114; 101] HF_FOLDING)).
Proof. vm_compute. reflexivity. Qed.
Example test_value_17 : h_value SReq false [118; 97; 108; 117; 101; 13; 10; 32; 109; 111; 114; 101; 13; 10; 9; 97; 110; 100; 32; 109; 111; 114; 101; 13; 10; 110; 101; 120; 116; 58] = Some (POk [110; 101; 120; 116; 58] (mk_hf [118; 97; 108; 117; 101; 32; 109; 111; 114; 101; 9; 97; 110; 100; 32; 109; 111; 114; 101] HF_FOLDING)).
Proof. vm_compute. reflexivity. Qed.
Example test_value_18 : h_value SResp false [118; 97; 108; 117; 101; 13; 10; 32; 109; 111; 114; 101; 13; 10; 9; 97; 110; 100; 32; 109; 111; 114; 101; 13; 10; 110; 101; 120; 116; 58] = Some (POk [110; 101; 120; 116; 58] (mk_hf [118; 97; 108; 117; 101; 32; 109; 111; 114; 101; 9; 97; 110; 100; 32; 109; 111; 114; 101] HF_FOLDING)).
Proof. vm_compute. reflexivity. Qed.
Example test_value_19 : h_value SReq false [118; 97; 108; 117; 101; 10; 9; 9; 109; 111; 114; 101; 13; 10; 32; 32; 97; 110; 100; 13; 10; 32; 109; 111; 114; 101; 13; 10; 110; 101; 120; 116; 58] = Some (POk [110; 101; 120; 116; 58] (mk_hf [118; 97; 108; 117; 101; 9; 9; 109; 111; 114; 101; 32; 32; 97; 110; 100; 32; 109; 111; 114; 101] HF_FOLDING)).
Proof. vm_compute. reflexivity. Qed.
Example test_value_20 : h_value SResp false [118; 97; 108; 117; 101; 10; 9; 9; 109; 111; 114; 101; 13; 10; 32; 32; 97; 110; 100; 13; 10; 32; 109; 111; 114; 101; 13; 10; 110; 101; 120; 116; 58] = Some (POk [110; 101; 120; 116; 58] (mk_hf [118; 97; 108; 117; 101; 9; 9; 109; 111; 114; 101; 32; 32; 97; 110; 100; 32; 109; 111; 114; 101] HF_FOLDING)).
Proof. vm_compute. reflexivity. Qed.
Example test_value_21 : h_value SReq false [118; 97; 108; 117; 101; 10; 32; 109; 111; 114; 101; 10; 13; 9; 97; 110; 100; 32; 109; 111; 114; 101; 13; 10; 13; 10] = Some (POk [13; 9; 97; 110; 100; 32; 109; 111; 114; 101; 13; 10; 13; 10] (mk_hf [118; 97; 108; 117; 101; 32; 109; 111; 114; 101] HF_FOLDING)).
Proof. vm_compute. reflexivity. Qed.
Example test_value_22 : h_value SResp false [118; 97; 108; 117; 101; 10; 32; 109; 111; 114; 101; 10; 13; 9; 97; 110; 100; 32; 109; 111; 114; 101; 13; 10; 13; 10] = Some (POk [13; 10] (mk_hf [118; 97; 108; 117; 101; 32; 109; 111; 114; 101; 9; 97; 110; 100; 32; 109; 111; 114; 101] HF_FOLDING)).
Proof. vm_compute. reflexivity. Qed.
Example test_value_23 : h_value SReq false [118; 97; 108; 117; 101; 10; 13; 9; 9; 109; 111; 114; 101; 13; 10; 32; 32; 97; 110; 100; 13; 10; 32; 109; 111; 114; 101; 13; 10; 110; 101; 120; 116; 58] = Some (POk [13; 9; 9; 109; 111; 114; 101; 13; 10; 32; 32; 97; 110; 100; 13; 10; 32; 109; 111; 114; 101; 13; 10; 110; 101; 120; 116; 58] (mk_hf [118; 97; 108; 117; 101] 0)).
Proof. vm_compute. reflexivity. Qed.
Example test_value_24 : h_value SResp false [118; 97; 108; 117; 101; 10; 13; 9; 9; 109; 111; 114; 101; 13; 10; 32; 32; 97; 110; 100; 13; 10; 32; 109; 111; 114; 101; 13; 10; 110; 101; 120; 116; 58] = Some (POk [110; 101; 120; 116; 58] (mk_hf [118; 97; 108; 117; 101; 9; 9; 109; 111; 114; 101; 32; 32; 97; 110; 100; 32; 109; 111; 114; 101] HF_FOLDING)).
Proof. vm_compute. reflexivity. Qed.
Example test_value_25 : h_value SReq false [118; 97; 108; 117; 101; 10; 13; 9; 9; 109; 111; 114; 101; 13; 10; 32; 32; 97; 110; 100; 13; 10; 32; 109; 111; 114; 101; 13; 10; 110; 101; 120; 116; 58] = Some (POk [13; 9; 9; 109; 111; 114; 101; 13; 10; 32; 32; 97; 110; 100; 13; 10; 32; 109; 111; 114; 101; 13; 10; 110; 101; 120; 116; 58] (mk_hf [118; 97; 108; 117; 101] 0)).
Proof. vm_compute. reflexivity. Qed.
Example test_value_26 : h_value SResp false [118; 97; 108; 117; 101; 10; 13; 9; 9; 109; 111; 114; 101; 13; 10; 32; 32; 97; 110; 100; 13; 10; 32; 109; 111; 114; 101; 13; 10; 110; 101; 120; 116; 58] = Some (POk [110; 101; 120; 116; 58] (mk_hf [118; 97; 108; 117; 101; 9; 9; 109; 111; 114; 101; 32; 32; 97; 110; 100; 32; 109; 111; 114; 101] HF_FOLDING)).
Proof. vm_compute. reflexivity. Qed.
Example test_value_27 : h_value SReq false [118; 97; 108; 117; 101; 49; 10; 13; 32; 110; 101; 120; 116; 58; 32; 118; 97; 108; 117; 101; 50; 13; 10; 32; 32; 97; 110; 100; 13; 10; 32; 109; 111; 114; 101; 13; 10; 110; 101; 120; 116; 51; 58] = Some (POk [13; 32; 110; 101; 120; 116; 58; 32; 118; 97; 108; 117; 101; 50; 13; 10; 32; 32; 97; 110; 100; 13; 10; 32; 109; 111; 114; 101; 13; 10; 110; 101; 120; 116; 51; 58] (mk_hf [118; 97; 108; 117; 101; 49] 0)).
Proof. vm_compute. reflexivity. Qed.
Example test_value_28 : h_value SResp false [118; 97; 108; 117; 101; 49; 10; 13; 32; 110; 101; 120; 116; 58; 32; 118; 97; 108; 117; 101; 50; 13; 10; 32; 32; 97; 110; 100; 13; 10; 32; 109; 111; 114; 101; 13; 10; 110; 101; 120; 116; 51; 58] = Some (POk [110; 101; 120; 116; 58; 32; 118; 97; 108; 117; 101; 50; 13; 10; 32; 32; 97; 110; 100; 13; 10; 32; 109; 111; 114; 101; 13; 10; 110; 101; 120; 116; 51; 58] (mk_hf [118; 97; 108; 117; 101; 49] 0)).
Proof. vm_compute. reflexivity. Qed.
Example test_value_29 : h_value SReq false [118; 97; 108; 117; 101; 13; 10; 110; 101; 120; 116; 58] = Some (POk [110; 101; 120; 116; 58] (mk_hf [118; 97; 108; 117; 101] 0)).
Proof. vm_compute. reflexivity. Qed.
Example test_value_30 : h_value SResp false [118; 97; 108; 117; 101; 13; 10; 110; 101; 120; 116; 58] = Some (POk [110; 101; 120; 116; 58] (mk_hf [118; 97; 108; 117; 101] 0)).
Proof. vm_compute. reflexivity. Qed.
Example test_value_31 : h_value SReq false [13; 10; 110; 101; 120; 116; 58] = Some (POk [110; 101; 120; 116; 58] (mk_hf [] HF_VALUE_EMPTY)).
Proof. vm_compute. reflexivity. Qed.
Example test_value_32 : h_value SResp false [13; 10; 110; 101; 120; 116; 58] = Some (POk [110; 101; 120; 116; 58] (mk_hf [] HF_VALUE_EMPTY)).
Proof. vm_compute. reflexivity. Qed.
Example test_value_33 : h_value SReq false [98; 13; 10; 32; 99; 58; 32; 100; 13; 10; 65; 65; 65] = Some (POk [65; 65; 65] (mk_hf [98; 32; 99; 58; 32; 100] HF_FOLDING)).
Proof. vm_compute. reflexivity. Qed.
Example test_value_34 : h_value SResp false [98; 13; 10; 32; 99; 58; 32; 100; 13; 10; 65; 65; 65] = Some (POk [99; 58; 32; 100; 13; 10; 65; 65; 65] (mk_hf [98] 0)).
Proof. vm_compute. reflexivity. Qed.
Example test_value_35 : h_value SReq false [98; 13; 10; 32; 58; 32; 100; 13; 10; 65; 65; 65] = Some (POk [65; 65; 65] (mk_hf [98; 32; 58; 32; 100] HF_FOLDING)).
Proof. vm_compute. reflexivity. Qed.
Example test_value_36 : h_value SResp false [98; 13; 10; 32; 58; 32; 100; 13; 10; 65; 65; 65] = Some (POk [65; 65; 65] (mk_hf [98; 32; 58; 32; 100] HF_FOLDING)).
Proof. vm_compute. reflexivity. Qed.
