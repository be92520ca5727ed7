{
"C01_k1_public_key": [
"PrimInt63.add",
"PrimInt63.eqb",
"PrimInt63.int",
"PrimInt63.land",
"PrimInt63.leb",
"PrimInt63.lor",
"PrimInt63.lsl",
"PrimInt63.lsr",
"PrimInt63.ltb",
"PrimInt63.mul",
"PrimInt63.sub",
"Uint63.add_spec",
"Uint63.eqb_correct",
"Uint63.eqb_refl",
"Uint63.land_spec",
"Uint63.leb_spec",
"Uint63.lor_spec",
"Uint63.lsl_spec",
"Uint63.lsr_spec",
"Uint63.ltb_spec",
"Uint63.mul_spec",
"Uint63.of_to_Z",
"Uint63.sub_spec"
],
"C02_k1_signatures_verify": [
"PrimInt63.add",
"PrimInt63.eqb",
"PrimInt63.int",
"PrimInt63.land",
"PrimInt63.leb",
"PrimInt63.lor",
"PrimInt63.lsl",
"PrimInt63.lsr",
"PrimInt63.ltb",
"PrimInt63.mul",
"PrimInt63.sub",
"Uint63.add_spec",
"Uint63.eqb_correct",
"Uint63.eqb_refl",
"Uint63.land_spec",
"Uint63.leb_spec",
"Uint63.lor_spec",
"Uint63.lsl_spec",
"Uint63.lsr_spec",
"Uint63.ltb_spec",
"Uint63.mul_spec",
"Uint63.of_to_Z",
"Uint63.sub_spec"
],
"C02_signing_key_has_public_key": [
"PrimInt63.add",
"PrimInt63.eqb",
"PrimInt63.int",
"PrimInt63.land",
"PrimInt63.leb",
"PrimInt63.lor",
"PrimInt63.lsl",
"PrimInt63.lsr",
"PrimInt63.ltb",
"PrimInt63.mul",
"PrimInt63.sub",
"Uint63.add_spec",
"Uint63.eqb_correct",
"Uint63.eqb_refl",
"Uint63.land_spec",
"Uint63.leb_spec",
"Uint63.lor_spec",
"Uint63.lsl_spec",
"Uint63.lsr_spec",
"Uint63.ltb_spec",
"Uint63.mul_spec",
"Uint63.of_to_Z",
"Uint63.sub_spec"
],
"C03_k1_verify_is_ecdsa": [
"PrimInt63.add",
"PrimInt63.eqb",
"PrimInt63.int",
"PrimInt63.land",
"PrimInt63.leb",
"PrimInt63.lor",
"PrimInt63.lsl",
"PrimInt63.lsr",
"PrimInt63.ltb",
"PrimInt63.mul",
"PrimInt63.sub",
"Uint63.add_spec",
"Uint63.eqb_correct",
"Uint63.eqb_refl",
"Uint63.land_spec",
"Uint63.leb_spec",
"Uint63.lor_spec",
"Uint63.lsl_spec",
"Uint63.lsr_spec",
"Uint63.ltb_spec",
"Uint63.mul_spec",
"Uint63.of_to_Z",
"Uint63.sub_spec"
],
"C03_k1_verify_total": [],
"C04_k1_signatures_canonical": [
"PrimInt63.add",
"PrimInt63.eqb",
"PrimInt63.int",
"PrimInt63.land",
"PrimInt63.leb",
"PrimInt63.lor",
"PrimInt63.lsl",
"PrimInt63.lsr",
"PrimInt63.ltb",
"PrimInt63.mul",
"PrimInt63.sub",
"Uint63.add_spec",
"Uint63.eqb_correct",
"Uint63.eqb_refl",
"Uint63.land_spec",
"Uint63.leb_spec",
"Uint63.lor_spec",
"Uint63.lsl_spec",
"Uint63.lsr_spec",
"Uint63.ltb_spec",
"Uint63.mul_spec",
"Uint63.of_to_Z",
"Uint63.sub_spec"
],
"C05_k1_recovery": [
"PrimInt63.add",
"PrimInt63.eqb",
"PrimInt63.int",
"PrimInt63.land",
"PrimInt63.leb",
"PrimInt63.lor",
"PrimInt63.lsl",
"PrimInt63.lsr",
"PrimInt63.ltb",
"PrimInt63.mul",
"PrimInt63.sub",
"Uint63.add_spec",
"Uint63.eqb_correct",
"Uint63.eqb_refl",
"Uint63.land_spec",
"Uint63.leb_spec",
"Uint63.lor_spec",
"Uint63.lsl_spec",
"Uint63.lsr_spec",
"Uint63.ltb_spec",
"Uint63.mul_spec",
"Uint63.of_to_Z",
"Uint63.sub_spec"
],
"C06_k1_recovered_keys_verify": [],
"C07_recovery_never_crashes_refuted": [
"PrimInt63.add",
"PrimInt63.eqb",
"PrimInt63.int",
"PrimInt63.land",
"PrimInt63.leb",
"PrimInt63.lor",
"PrimInt63.lsl",
"PrimInt63.lsr",
"PrimInt63.ltb",
"PrimInt63.mul",
"PrimInt63.sub",
"Uint63.add_spec",
"Uint63.eqb_correct",
"Uint63.eqb_refl",
"Uint63.land_spec",
"Uint63.leb_spec",
"Uint63.lor_spec",
"Uint63.lsl_spec",
"Uint63.lsr_spec",
"Uint63.ltb_spec",
"Uint63.mul_spec",
"Uint63.of_to_Z",
"Uint63.sub_spec"
],
"C07_k1_recovery_no_crash_partial": [
"PrimInt63.add",
"PrimInt63.eqb",
"PrimInt63.int",
"PrimInt63.land",
"PrimInt63.leb",
"PrimInt63.lor",
"PrimInt63.lsl",
"PrimInt63.lsr",
"PrimInt63.ltb",
"PrimInt63.mul",
"PrimInt63.sub",
"Uint63.add_spec",
"Uint63.eqb_correct",
"Uint63.eqb_refl",
"Uint63.land_spec",
"Uint63.leb_spec",
"Uint63.lor_spec",
"Uint63.lsl_spec",
"Uint63.lsr_spec",
"Uint63.ltb_spec",
"Uint63.mul_spec",
"Uint63.of_to_Z",
"Uint63.sub_spec"
],
"C08_zero_hash_recovery_refuted": [
"PrimInt63.add",
"PrimInt63.eqb",
"PrimInt63.int",
"PrimInt63.land",
"PrimInt63.leb",
"PrimInt63.lor",
"PrimInt63.lsl",
"PrimInt63.lsr",
"PrimInt63.ltb",
"PrimInt63.mul",
"PrimInt63.sub",
"Uint63.add_spec",
"Uint63.eqb_correct",
"Uint63.eqb_refl",
"Uint63.land_spec",
"Uint63.leb_spec",
"Uint63.lor_spec",
"Uint63.lsl_spec",
"Uint63.lsr_spec",
"Uint63.ltb_spec",
"Uint63.mul_spec",
"Uint63.of_to_Z",
"Uint63.sub_spec"
],
"C09_k1_compression_round_trip": [
"PrimInt63.add",
"PrimInt63.eqb",
"PrimInt63.int",
"PrimInt63.land",
"PrimInt63.leb",
"PrimInt63.lor",
"PrimInt63.lsl",
"PrimInt63.lsr",
"PrimInt63.ltb",
"PrimInt63.mul",
"PrimInt63.sub",
"Uint63.add_spec",
"Uint63.eqb_correct",
"Uint63.eqb_refl",
"Uint63.land_spec",
"Uint63.leb_spec",
"Uint63.lor_spec",
"Uint63.lsl_spec",
"Uint63.lsr_spec",
"Uint63.ltb_spec",
"Uint63.mul_spec",
"Uint63.of_to_Z",
"Uint63.sub_spec"
],
"C10_decompression_on_curve_refuted": [
"PrimInt63.add",
"PrimInt63.eqb",
"PrimInt63.int",
"PrimInt63.land",
"PrimInt63.leb",
"PrimInt63.lor",
"PrimInt63.lsl",
"PrimInt63.lsr",
"PrimInt63.ltb",
"PrimInt63.mul",
"PrimInt63.sub",
"Uint63.add_spec",
"Uint63.eqb_correct",
"Uint63.eqb_refl",
"Uint63.land_spec",
"Uint63.leb_spec",
"Uint63.lor_spec",
"Uint63.lsl_spec",
"Uint63.lsr_spec",
"Uint63.ltb_spec",
"Uint63.mul_spec",
"Uint63.of_to_Z",
"Uint63.sub_spec"
],
"C10_k1_decompression_partial": [
"PrimInt63.add",
"PrimInt63.eqb",
"PrimInt63.int",
"PrimInt63.land",
"PrimInt63.leb",
"PrimInt63.lor",
"PrimInt63.lsl",
"PrimInt63.lsr",
"PrimInt63.ltb",
"PrimInt63.mul",
"PrimInt63.sub",
"Uint63.add_spec",
"Uint63.eqb_correct",
"Uint63.eqb_refl",
"Uint63.land_spec",
"Uint63.leb_spec",
"Uint63.lor_spec",
"Uint63.lsl_spec",
"Uint63.lsr_spec",
"Uint63.ltb_spec",
"Uint63.mul_spec",
"Uint63.of_to_Z",
"Uint63.sub_spec"
],
"C11_k1_point_add": [
"PrimInt63.add",
"PrimInt63.eqb",
"PrimInt63.int",
"PrimInt63.land",
"PrimInt63.leb",
"PrimInt63.lor",
"PrimInt63.lsl",
"PrimInt63.lsr",
"PrimInt63.ltb",
"PrimInt63.mul",
"PrimInt63.sub",
"Uint63.add_spec",
"Uint63.eqb_correct",
"Uint63.eqb_refl",
"Uint63.land_spec",
"Uint63.leb_spec",
"Uint63.lor_spec",
"Uint63.lsl_spec",
"Uint63.lsr_spec",
"Uint63.ltb_spec",
"Uint63.mul_spec",
"Uint63.of_to_Z",
"Uint63.sub_spec"
],
"C12_k1_point_mul": [
"PrimInt63.add",
"PrimInt63.eqb",
"PrimInt63.int",
"PrimInt63.land",
"PrimInt63.leb",
"PrimInt63.lor",
"PrimInt63.lsl",
"PrimInt63.lsr",
"PrimInt63.ltb",
"PrimInt63.mul",
"PrimInt63.sub",
"Uint63.add_spec",
"Uint63.eqb_correct",
"Uint63.eqb_refl",
"Uint63.land_spec",
"Uint63.leb_spec",
"Uint63.lor_spec",
"Uint63.lsl_spec",
"Uint63.lsr_spec",
"Uint63.ltb_spec",
"Uint63.mul_spec",
"Uint63.of_to_Z",
"Uint63.sub_spec"
],
"C13_k1_mulBaseG_add": [
"PrimInt63.add",
"PrimInt63.eqb",
"PrimInt63.int",
"PrimInt63.land",
"PrimInt63.leb",
"PrimInt63.lor",
"PrimInt63.lsl",
"PrimInt63.lsr",
"PrimInt63.ltb",
"PrimInt63.mul",
"PrimInt63.sub",
"Uint63.add_spec",
"Uint63.eqb_correct",
"Uint63.eqb_refl",
"Uint63.land_spec",
"Uint63.leb_spec",
"Uint63.lor_spec",
"Uint63.lsl_spec",
"Uint63.lsr_spec",
"Uint63.ltb_spec",
"Uint63.mul_spec",
"Uint63.of_to_Z",
"Uint63.sub_spec"
],
"C14_k1_homomorphic": [
"PrimInt63.add",
"PrimInt63.eqb",
"PrimInt63.int",
"PrimInt63.land",
"PrimInt63.leb",
"PrimInt63.lor",
"PrimInt63.lsl",
"PrimInt63.lsr",
"PrimInt63.ltb",
"PrimInt63.mul",
"PrimInt63.sub",
"Uint63.add_spec",
"Uint63.eqb_correct",
"Uint63.eqb_refl",
"Uint63.land_spec",
"Uint63.leb_spec",
"Uint63.lor_spec",
"Uint63.lsl_spec",
"Uint63.lsr_spec",
"Uint63.ltb_spec",
"Uint63.mul_spec",
"Uint63.of_to_Z",
"Uint63.sub_spec"
],
"C15_point_apis_refuted": [],
"C15_k1_no_crash_partial": [
"PrimInt63.add",
"PrimInt63.eqb",
"PrimInt63.int",
"PrimInt63.land",
"PrimInt63.leb",
"PrimInt63.lor",
"PrimInt63.lsl",
"PrimInt63.lsr",
"PrimInt63.ltb",
"PrimInt63.mul",
"PrimInt63.sub",
"Uint63.add_spec",
"Uint63.eqb_correct",
"Uint63.eqb_refl",
"Uint63.land_spec",
"Uint63.leb_spec",
"Uint63.lor_spec",
"Uint63.lsl_spec",
"Uint63.lsr_spec",
"Uint63.ltb_spec",
"Uint63.mul_spec",
"Uint63.of_to_Z",
"Uint63.sub_spec"
],
"C16_r1_sum_x0_refuted": [
"PrimInt63.add",
"PrimInt63.eqb",
"PrimInt63.int",
"PrimInt63.land",
"PrimInt63.leb",
"PrimInt63.lor",
"PrimInt63.lsl",
"PrimInt63.lsr",
"PrimInt63.ltb",
"PrimInt63.mul",
"PrimInt63.sub",
"Uint63.add_spec",
"Uint63.eqb_correct",
"Uint63.eqb_refl",
"Uint63.land_spec",
"Uint63.leb_spec",
"Uint63.lor_spec",
"Uint63.lsl_spec",
"Uint63.lsr_spec",
"Uint63.ltb_spec",
"Uint63.mul_spec",
"Uint63.of_to_Z",
"Uint63.sub_spec"
],
"C16_r1_point_add_partial": [],
"C17_r1_signatures_verify": [
"PrimInt63.add",
"PrimInt63.eqb",
"PrimInt63.int",
"PrimInt63.land",
"PrimInt63.leb",
"PrimInt63.lor",
"PrimInt63.lsl",
"PrimInt63.lsr",
"PrimInt63.ltb",
"PrimInt63.mul",
"PrimInt63.sub",
"Uint63.add_spec",
"Uint63.eqb_correct",
"Uint63.eqb_refl",
"Uint63.land_spec",
"Uint63.leb_spec",
"Uint63.lor_spec",
"Uint63.lsl_spec",
"Uint63.lsr_spec",
"Uint63.ltb_spec",
"Uint63.mul_spec",
"Uint63.of_to_Z",
"Uint63.sub_spec"
],
"C17_r1_signatures_canonical": [],
"C17_r1_recovery": [],
"C18_curve_orders": [
"PrimInt63.add",
"PrimInt63.eqb",
"PrimInt63.int",
"PrimInt63.land",
"PrimInt63.leb",
"PrimInt63.lor",
"PrimInt63.lsl",
"PrimInt63.lsr",
"PrimInt63.ltb",
"PrimInt63.mul",
"PrimInt63.sub",
"Uint63.add_spec",
"Uint63.eqb_correct",
"Uint63.eqb_refl",
"Uint63.land_spec",
"Uint63.leb_spec",
"Uint63.lor_spec",
"Uint63.lsl_spec",
"Uint63.lsr_spec",
"Uint63.ltb_spec",
"Uint63.mul_spec",
"Uint63.of_to_Z",
"Uint63.sub_spec"
],
"C19_unknown_identifiers_partial": [],
"C19_unknown_identifiers_refuted": [],
"C30_sm2_field_partial": [],
"C30_sm2_mul_refuted": [],
"C30_sm2_square_refuted": [],
"C57_r1_public_key": [],
"C57_r1_verify_is_ecdsa": [],
"C57_r1_compression_round_trip": [],
"C57_r1_point_mul": [],
"C57_r1_mulBaseG_add": [],
"C57_r1_homomorphic": [
"PrimInt63.add",
"PrimInt63.eqb",
"PrimInt63.int",
"PrimInt63.land",
"PrimInt63.leb",
"PrimInt63.lor",
"PrimInt63.lsl",
"PrimInt63.lsr",
"PrimInt63.ltb",
"PrimInt63.mul",
"PrimInt63.sub",
"Uint63.add_spec",
"Uint63.eqb_correct",
"Uint63.eqb_refl",
"Uint63.land_spec",
"Uint63.leb_spec",
"Uint63.lor_spec",
"Uint63.lsl_spec",
"Uint63.lsr_spec",
"Uint63.ltb_spec",
"Uint63.mul_spec",
"Uint63.of_to_Z",
"Uint63.sub_spec"
],
"C56_off_curve_keys_rejected_refuted": [
"PrimInt63.add",
"PrimInt63.eqb",
"PrimInt63.int",
"PrimInt63.land",
"PrimInt63.leb",
"PrimInt63.lor",
"PrimInt63.lsl",
"PrimInt63.lsr",
"PrimInt63.ltb",
"PrimInt63.mul",
"PrimInt63.sub",
"Uint63.add_spec",
"Uint63.eqb_correct",
"Uint63.eqb_refl",
"Uint63.land_spec",
"Uint63.leb_spec",
"Uint63.lor_spec",
"Uint63.lsl_spec",
"Uint63.lsr_spec",
"Uint63.ltb_spec",
"Uint63.mul_spec",
"Uint63.of_to_Z",
"Uint63.sub_spec"
],
"C21_sm2_signatures_verify_refuted": [
"PrimInt63.add",
"PrimInt63.eqb",
"PrimInt63.int",
"PrimInt63.land",
"PrimInt63.leb",
"PrimInt63.lor",
"PrimInt63.lsl",
"PrimInt63.lsr",
"PrimInt63.ltb",
"PrimInt63.mul",
"PrimInt63.sub",
"Uint63.add_spec",
"Uint63.eqb_correct",
"Uint63.eqb_refl",
"Uint63.land_spec",
"Uint63.leb_spec",
"Uint63.lor_spec",
"Uint63.lsl_spec",
"Uint63.lsr_spec",
"Uint63.ltb_spec",
"Uint63.mul_spec",
"Uint63.of_to_Z",
"Uint63.sub_spec"
],
"C21_sm2_signatures_verify_partial": [
"PrimInt63.add",
"PrimInt63.eqb",
"PrimInt63.int",
"PrimInt63.land",
"PrimInt63.leb",
"PrimInt63.lor",
"PrimInt63.lsl",
"PrimInt63.lsr",
"PrimInt63.ltb",
"PrimInt63.mul",
"PrimInt63.sub",
"Uint63.add_spec",
"Uint63.eqb_correct",
"Uint63.eqb_refl",
"Uint63.land_spec",
"Uint63.leb_spec",
"Uint63.lor_spec",
"Uint63.lsl_spec",
"Uint63.lsr_spec",
"Uint63.ltb_spec",
"Uint63.mul_spec",
"Uint63.of_to_Z",
"Uint63.sub_spec"
],
"C22_sm2_sign_never_crashes_refuted": [
"PrimInt63.add",
"PrimInt63.eqb",
"PrimInt63.int",
"PrimInt63.land",
"PrimInt63.leb",
"PrimInt63.lor",
"PrimInt63.lsl",
"PrimInt63.lsr",
"PrimInt63.ltb",
"PrimInt63.mul",
"PrimInt63.sub",
"Uint63.add_spec",
"Uint63.eqb_correct",
"Uint63.eqb_refl",
"Uint63.land_spec",
"Uint63.leb_spec",
"Uint63.lor_spec",
"Uint63.lsl_spec",
"Uint63.lsr_spec",
"Uint63.ltb_spec",
"Uint63.mul_spec",
"Uint63.of_to_Z",
"Uint63.sub_spec"
],
"C22_sm2_sign_never_crashes_partial": [
"PrimInt63.add",
"PrimInt63.eqb",
"PrimInt63.int",
"PrimInt63.land",
"PrimInt63.leb",
"PrimInt63.lor",
"PrimInt63.lsl",
"PrimInt63.lsr",
"PrimInt63.ltb",
"PrimInt63.mul",
"PrimInt63.sub",
"Uint63.add_spec",
"Uint63.eqb_correct",
"Uint63.eqb_refl",
"Uint63.land_spec",
"Uint63.leb_spec",
"Uint63.lor_spec",
"Uint63.lsl_spec",
"Uint63.lsr_spec",
"Uint63.ltb_spec",
"Uint63.mul_spec",
"Uint63.of_to_Z",
"Uint63.sub_spec"
],
"C23_sm2_point_add_refuted": [
"PrimInt63.add",
"PrimInt63.eqb",
"PrimInt63.int",
"PrimInt63.land",
"PrimInt63.leb",
"PrimInt63.lor",
"PrimInt63.lsl",
"PrimInt63.lsr",
"PrimInt63.ltb",
"PrimInt63.mul",
"PrimInt63.sub",
"Uint63.add_spec",
"Uint63.eqb_correct",
"Uint63.eqb_refl",
"Uint63.land_spec",
"Uint63.leb_spec",
"Uint63.lor_spec",
"Uint63.lsl_spec",
"Uint63.lsr_spec",
"Uint63.ltb_spec",
"Uint63.mul_spec",
"Uint63.of_to_Z",
"Uint63.sub_spec"
],
"C23_sm2_point_add_partial": [
"PrimInt63.add",
"PrimInt63.eqb",
"PrimInt63.int",
"PrimInt63.land",
"PrimInt63.leb",
"PrimInt63.lor",
"PrimInt63.lsl",
"PrimInt63.lsr",
"PrimInt63.ltb",
"PrimInt63.mul",
"PrimInt63.sub",
"Uint63.add_spec",
"Uint63.eqb_correct",
"Uint63.eqb_refl",
"Uint63.land_spec",
"Uint63.leb_spec",
"Uint63.lor_spec",
"Uint63.lsl_spec",
"Uint63.lsr_spec",
"Uint63.ltb_spec",
"Uint63.mul_spec",
"Uint63.of_to_Z",
"Uint63.sub_spec"
],
"C24_sm2_decryption_partial": [
"PrimInt63.add",
"PrimInt63.eqb",
"PrimInt63.int",
"PrimInt63.land",
"PrimInt63.leb",
"PrimInt63.lor",
"PrimInt63.lsl",
"PrimInt63.lsr",
"PrimInt63.ltb",
"PrimInt63.mul",
"PrimInt63.sub",
"Uint63.add_spec",
"Uint63.eqb_correct",
"Uint63.eqb_refl",
"Uint63.land_spec",
"Uint63.leb_spec",
"Uint63.lor_spec",
"Uint63.lsl_spec",
"Uint63.lsr_spec",
"Uint63.ltb_spec",
"Uint63.mul_spec",
"Uint63.of_to_Z",
"Uint63.sub_spec"
],
"C25_sm2_decryption_authenticates_refuted": [
"PrimInt63.add",
"PrimInt63.eqb",
"PrimInt63.int",
"PrimInt63.land",
"PrimInt63.leb",
"PrimInt63.lor",
"PrimInt63.lsl",
"PrimInt63.lsr",
"PrimInt63.ltb",
"PrimInt63.mul",
"PrimInt63.sub",
"Uint63.add_spec",
"Uint63.eqb_correct",
"Uint63.eqb_refl",
"Uint63.land_spec",
"Uint63.leb_spec",
"Uint63.lor_spec",
"Uint63.lsl_spec",
"Uint63.lsr_spec",
"Uint63.ltb_spec",
"Uint63.mul_spec",
"Uint63.of_to_Z",
"Uint63.sub_spec"
],
"C26_sm2_decryption_never_crashes_refuted": [
"PrimInt63.add",
"PrimInt63.eqb",
"PrimInt63.int",
"PrimInt63.land",
"PrimInt63.leb",
"PrimInt63.lor",
"PrimInt63.lsl",
"PrimInt63.lsr",
"PrimInt63.ltb",
"PrimInt63.mul",
"PrimInt63.sub",
"Uint63.add_spec",
"Uint63.eqb_correct",
"Uint63.eqb_refl",
"Uint63.land_spec",
"Uint63.leb_spec",
"Uint63.lor_spec",
"Uint63.lsl_spec",
"Uint63.lsr_spec",
"Uint63.ltb_spec",
"Uint63.mul_spec",
"Uint63.of_to_Z",
"Uint63.sub_spec"
],
"C26_sm2_decryption_never_crashes_partial": [
"PrimInt63.add",
"PrimInt63.eqb",
"PrimInt63.int",
"PrimInt63.land",
"PrimInt63.leb",
"PrimInt63.lor",
"PrimInt63.lsl",
"PrimInt63.lsr",
"PrimInt63.ltb",
"PrimInt63.mul",
"PrimInt63.sub",
"Uint63.add_spec",
"Uint63.eqb_correct",
"Uint63.eqb_refl",
"Uint63.land_spec",
"Uint63.leb_spec",
"Uint63.lor_spec",
"Uint63.lsl_spec",
"Uint63.lsr_spec",
"Uint63.ltb_spec",
"Uint63.mul_spec",
"Uint63.of_to_Z",
"Uint63.sub_spec"
],
"C27_sm2_key_agreement_partial": [
"PrimInt63.add",
"PrimInt63.eqb",
"PrimInt63.int",
"PrimInt63.land",
"PrimInt63.leb",
"PrimInt63.lor",
"PrimInt63.lsl",
"PrimInt63.lsr",
"PrimInt63.ltb",
"PrimInt63.mul",
"PrimInt63.sub",
"Uint63.add_spec",
"Uint63.eqb_correct",
"Uint63.eqb_refl",
"Uint63.land_spec",
"Uint63.leb_spec",
"Uint63.lor_spec",
"Uint63.lsl_spec",
"Uint63.lsr_spec",
"Uint63.ltb_spec",
"Uint63.mul_spec",
"Uint63.of_to_Z",
"Uint63.sub_spec"
],
"C28_sm2_agreed_key_length_refuted": [
"PrimInt63.add",
"PrimInt63.eqb",
"PrimInt63.int",
"PrimInt63.land",
"PrimInt63.leb",
"PrimInt63.lor",
"PrimInt63.lsl",
"PrimInt63.lsr",
"PrimInt63.ltb",
"PrimInt63.mul",
"PrimInt63.sub",
"Uint63.add_spec",
"Uint63.eqb_correct",
"Uint63.eqb_refl",
"Uint63.land_spec",
"Uint63.leb_spec",
"Uint63.lor_spec",
"Uint63.lsl_spec",
"Uint63.lsr_spec",
"Uint63.ltb_spec",
"Uint63.mul_spec",
"Uint63.of_to_Z",
"Uint63.sub_spec"
],
"C28_sm2_agreed_key_length_partial": [],
"C29_sm2_recovery_refuted": [
"PrimInt63.add",
"PrimInt63.eqb",
"PrimInt63.int",
"PrimInt63.land",
"PrimInt63.leb",
"PrimInt63.lor",
"PrimInt63.lsl",
"PrimInt63.lsr",
"PrimInt63.ltb",
"PrimInt63.mul",
"PrimInt63.sub",
"Uint63.add_spec",
"Uint63.eqb_correct",
"Uint63.eqb_refl",
"Uint63.land_spec",
"Uint63.leb_spec",
"Uint63.lor_spec",
"Uint63.lsl_spec",
"Uint63.lsr_spec",
"Uint63.ltb_spec",
"Uint63.mul_spec",
"Uint63.of_to_Z",
"Uint63.sub_spec"
],
"C58_sm2_point_mul_refuted": [
"PrimInt63.add",
"PrimInt63.eqb",
"PrimInt63.int",
"PrimInt63.land",
"PrimInt63.leb",
"PrimInt63.lor",
"PrimInt63.lsl",
"PrimInt63.lsr",
"PrimInt63.ltb",
"PrimInt63.mul",
"PrimInt63.sub",
"Uint63.add_spec",
"Uint63.eqb_correct",
"Uint63.eqb_refl",
"Uint63.land_spec",
"Uint63.leb_spec",
"Uint63.lor_spec",
"Uint63.lsl_spec",
"Uint63.lsr_spec",
"Uint63.ltb_spec",
"Uint63.mul_spec",
"Uint63.of_to_Z",
"Uint63.sub_spec"
],
"C58_sm2_point_mul_partial": [
"PrimInt63.add",
"PrimInt63.eqb",
"PrimInt63.int",
"PrimInt63.land",
"PrimInt63.leb",
"PrimInt63.lor",
"PrimInt63.lsl",
"PrimInt63.lsr",
"PrimInt63.ltb",
"PrimInt63.mul",
"PrimInt63.sub",
"Uint63.add_spec",
"Uint63.eqb_correct",
"Uint63.eqb_refl",
"Uint63.land_spec",
"Uint63.leb_spec",
"Uint63.lor_spec",
"Uint63.lsl_spec",
"Uint63.lsr_spec",
"Uint63.ltb_spec",
"Uint63.mul_spec",
"Uint63.of_to_Z",
"Uint63.sub_spec"
],
"C59_sm2_verify_is_sm2_partial": [
"PrimInt63.add",
"PrimInt63.eqb",
"PrimInt63.int",
"PrimInt63.land",
"PrimInt63.leb",
"PrimInt63.lor",
"PrimInt63.lsl",
"PrimInt63.lsr",
"PrimInt63.ltb",
"PrimInt63.mul",
"PrimInt63.sub",
"Uint63.add_spec",
"Uint63.eqb_correct",
"Uint63.eqb_refl",
"Uint63.land_spec",
"Uint63.leb_spec",
"Uint63.lor_spec",
"Uint63.lsl_spec",
"Uint63.lsr_spec",
"Uint63.ltb_spec",
"Uint63.mul_spec",
"Uint63.of_to_Z",
"Uint63.sub_spec"
],
"C60_sm2_public_key_partial": [
"PrimInt63.add",
"PrimInt63.eqb",
"PrimInt63.int",
"PrimInt63.land",
"PrimInt63.leb",
"PrimInt63.lor",
"PrimInt63.lsl",
"PrimInt63.lsr",
"PrimInt63.ltb",
"PrimInt63.mul",
"PrimInt63.sub",
"Uint63.add_spec",
"Uint63.eqb_correct",
"Uint63.eqb_refl",
"Uint63.land_spec",
"Uint63.leb_spec",
"Uint63.lor_spec",
"Uint63.lsl_spec",
"Uint63.lsr_spec",
"Uint63.ltb_spec",
"Uint63.mul_spec",
"Uint63.of_to_Z",
"Uint63.sub_spec"
],
"C61_sm2_compression_round_trip": [
"PrimInt63.add",
"PrimInt63.eqb",
"PrimInt63.int",
"PrimInt63.land",
"PrimInt63.leb",
"PrimInt63.lor",
"PrimInt63.lsl",
"PrimInt63.lsr",
"PrimInt63.ltb",
"PrimInt63.mul",
"PrimInt63.sub",
"Uint63.add_spec",
"Uint63.eqb_correct",
"Uint63.eqb_refl",
"Uint63.land_spec",
"Uint63.leb_spec",
"Uint63.lor_spec",
"Uint63.lsl_spec",
"Uint63.lsr_spec",
"Uint63.ltb_spec",
"Uint63.mul_spec",
"Uint63.of_to_Z",
"Uint63.sub_spec"
],
"C31_sm3_standard": [],
"C32_streaming": [],
"C33_sum_keeps_state_refuted": [],
"C33_sum_keeps_state_partial": [],
"C34_blake_standard": [],
"C34_blake_salted": [],
"C35_sha3_standard": [],
"C35_sha3_other": [],
"C35_shake_standard": [],
"C36_blake2s_standard": [],
"C36_hash_blake2s": [],
"C37_composites": [],
"C37_hmac": [],
"C37_unknown": [],
"C62_shake_clone_refuted": [],
"C62_shake_clone_partial": [],
"C63_hash_never_crashes_refuted": [],
"C63_hash_length_refuted": [],
"C63_hash_never_crashes_partial": [],
"C20_illegal_keys_refuted": [],
"C20_pasta_refuted": [
"PrimInt63.add",
"PrimInt63.eqb",
"PrimInt63.int",
"PrimInt63.land",
"PrimInt63.leb",
"PrimInt63.lor",
"PrimInt63.lsl",
"PrimInt63.lsr",
"PrimInt63.ltb",
"PrimInt63.mul",
"PrimInt63.sub",
"Uint63.add_spec",
"Uint63.eqb_correct",
"Uint63.eqb_refl",
"Uint63.land_spec",
"Uint63.leb_spec",
"Uint63.lor_spec",
"Uint63.lsl_spec",
"Uint63.lsr_spec",
"Uint63.ltb_spec",
"Uint63.mul_spec",
"Uint63.of_to_Z",
"Uint63.sub_spec"
],
"C20_bls_refuted": [],
"C20_illegal_keys_partial": [],
"C38_ed25519_normal": [
"PrimInt63.add",
"PrimInt63.eqb",
"PrimInt63.int",
"PrimInt63.land",
"PrimInt63.leb",
"PrimInt63.lor",
"PrimInt63.lsl",
"PrimInt63.lsr",
"PrimInt63.ltb",
"PrimInt63.mul",
"PrimInt63.sub",
"Uint63.add_spec",
"Uint63.eqb_correct",
"Uint63.eqb_refl",
"Uint63.land_spec",
"Uint63.leb_spec",
"Uint63.lor_spec",
"Uint63.lsl_spec",
"Uint63.lsr_spec",
"Uint63.ltb_spec",
"Uint63.mul_spec",
"Uint63.of_to_Z",
"Uint63.sub_spec"
],
"C39_ed25519_raw_refuted": [
"PrimInt63.add",
"PrimInt63.eqb",
"PrimInt63.int",
"PrimInt63.land",
"PrimInt63.leb",
"PrimInt63.lor",
"PrimInt63.lsl",
"PrimInt63.lsr",
"PrimInt63.ltb",
"PrimInt63.mul",
"PrimInt63.sub",
"Uint63.add_spec",
"Uint63.eqb_correct",
"Uint63.eqb_refl",
"Uint63.land_spec",
"Uint63.leb_spec",
"Uint63.lor_spec",
"Uint63.lsl_spec",
"Uint63.lsr_spec",
"Uint63.ltb_spec",
"Uint63.mul_spec",
"Uint63.of_to_Z",
"Uint63.sub_spec"
],
"C39_ed25519_raw_partial": [
"PrimInt63.add",
"PrimInt63.eqb",
"PrimInt63.int",
"PrimInt63.land",
"PrimInt63.leb",
"PrimInt63.lor",
"PrimInt63.lsl",
"PrimInt63.lsr",
"PrimInt63.ltb",
"PrimInt63.mul",
"PrimInt63.sub",
"Uint63.add_spec",
"Uint63.eqb_correct",
"Uint63.eqb_refl",
"Uint63.land_spec",
"Uint63.leb_spec",
"Uint63.lor_spec",
"Uint63.lsl_spec",
"Uint63.lsr_spec",
"Uint63.ltb_spec",
"Uint63.mul_spec",
"Uint63.of_to_Z",
"Uint63.sub_spec"
],
"C39_ed25519_clamped": [
"PrimInt63.add",
"PrimInt63.eqb",
"PrimInt63.int",
"PrimInt63.land",
"PrimInt63.leb",
"PrimInt63.lor",
"PrimInt63.lsl",
"PrimInt63.lsr",
"PrimInt63.ltb",
"PrimInt63.mul",
"PrimInt63.sub",
"Uint63.add_spec",
"Uint63.eqb_correct",
"Uint63.eqb_refl",
"Uint63.land_spec",
"Uint63.leb_spec",
"Uint63.lor_spec",
"Uint63.lsl_spec",
"Uint63.lsr_spec",
"Uint63.ltb_spec",
"Uint63.mul_spec",
"Uint63.of_to_Z",
"Uint63.sub_spec"
],
"C40_ed25519_public_key_refuted": [
"PrimInt63.add",
"PrimInt63.eqb",
"PrimInt63.int",
"PrimInt63.land",
"PrimInt63.leb",
"PrimInt63.lor",
"PrimInt63.lsl",
"PrimInt63.lsr",
"PrimInt63.ltb",
"PrimInt63.mul",
"PrimInt63.sub",
"Uint63.add_spec",
"Uint63.eqb_correct",
"Uint63.eqb_refl",
"Uint63.land_spec",
"Uint63.leb_spec",
"Uint63.lor_spec",
"Uint63.lsl_spec",
"Uint63.lsr_spec",
"Uint63.ltb_spec",
"Uint63.mul_spec",
"Uint63.of_to_Z",
"Uint63.sub_spec"
],
"C40_ed25519_public_key_partial": [
"PrimInt63.add",
"PrimInt63.eqb",
"PrimInt63.int",
"PrimInt63.land",
"PrimInt63.leb",
"PrimInt63.lor",
"PrimInt63.lsl",
"PrimInt63.lsr",
"PrimInt63.ltb",
"PrimInt63.mul",
"PrimInt63.sub",
"Uint63.add_spec",
"Uint63.eqb_correct",
"Uint63.eqb_refl",
"Uint63.land_spec",
"Uint63.leb_spec",
"Uint63.lor_spec",
"Uint63.lsl_spec",
"Uint63.lsr_spec",
"Uint63.ltb_spec",
"Uint63.mul_spec",
"Uint63.of_to_Z",
"Uint63.sub_spec"
],
"C41_x25519_signatures_verify_refuted": [
"PrimInt63.add",
"PrimInt63.eqb",
"PrimInt63.int",
"PrimInt63.land",
"PrimInt63.leb",
"PrimInt63.lor",
"PrimInt63.lsl",
"PrimInt63.lsr",
"PrimInt63.ltb",
"PrimInt63.mul",
"PrimInt63.sub",
"Uint63.add_spec",
"Uint63.eqb_correct",
"Uint63.eqb_refl",
"Uint63.land_spec",
"Uint63.leb_spec",
"Uint63.lor_spec",
"Uint63.lsl_spec",
"Uint63.lsr_spec",
"Uint63.ltb_spec",
"Uint63.mul_spec",
"Uint63.of_to_Z",
"Uint63.sub_spec"
],
"C41_x25519_signatures_verify_partial": [
"PrimInt63.add",
"PrimInt63.eqb",
"PrimInt63.int",
"PrimInt63.land",
"PrimInt63.leb",
"PrimInt63.lor",
"PrimInt63.lsl",
"PrimInt63.lsr",
"PrimInt63.ltb",
"PrimInt63.mul",
"PrimInt63.sub",
"Uint63.add_spec",
"Uint63.eqb_correct",
"Uint63.eqb_refl",
"Uint63.land_spec",
"Uint63.leb_spec",
"Uint63.lor_spec",
"Uint63.lsl_spec",
"Uint63.lsr_spec",
"Uint63.ltb_spec",
"Uint63.mul_spec",
"Uint63.of_to_Z",
"Uint63.sub_spec"
],
"C42_conversion_partial": [
"PrimInt63.add",
"PrimInt63.eqb",
"PrimInt63.int",
"PrimInt63.land",
"PrimInt63.leb",
"PrimInt63.lor",
"PrimInt63.lsl",
"PrimInt63.lsr",
"PrimInt63.ltb",
"PrimInt63.mul",
"PrimInt63.sub",
"Uint63.add_spec",
"Uint63.eqb_correct",
"Uint63.eqb_refl",
"Uint63.land_spec",
"Uint63.leb_spec",
"Uint63.lor_spec",
"Uint63.lsl_spec",
"Uint63.lsr_spec",
"Uint63.ltb_spec",
"Uint63.mul_spec",
"Uint63.of_to_Z",
"Uint63.sub_spec"
],
"C42_conversion_refuted": [
"PrimInt63.add",
"PrimInt63.eqb",
"PrimInt63.int",
"PrimInt63.land",
"PrimInt63.leb",
"PrimInt63.lor",
"PrimInt63.lsl",
"PrimInt63.lsr",
"PrimInt63.ltb",
"PrimInt63.mul",
"PrimInt63.sub",
"Uint63.add_spec",
"Uint63.eqb_correct",
"Uint63.eqb_refl",
"Uint63.land_spec",
"Uint63.leb_spec",
"Uint63.lor_spec",
"Uint63.lsl_spec",
"Uint63.lsr_spec",
"Uint63.ltb_spec",
"Uint63.mul_spec",
"Uint63.of_to_Z",
"Uint63.sub_spec"
],
"C44_field_arithmetic": [
"PrimInt63.add",
"PrimInt63.eqb",
"PrimInt63.int",
"PrimInt63.land",
"PrimInt63.leb",
"PrimInt63.lor",
"PrimInt63.lsl",
"PrimInt63.lsr",
"PrimInt63.ltb",
"PrimInt63.mul",
"PrimInt63.sub",
"Uint63.add_spec",
"Uint63.eqb_correct",
"Uint63.eqb_refl",
"Uint63.land_spec",
"Uint63.leb_spec",
"Uint63.lor_spec",
"Uint63.lsl_spec",
"Uint63.lsr_spec",
"Uint63.ltb_spec",
"Uint63.mul_spec",
"Uint63.of_to_Z",
"Uint63.sub_spec"
],
"C44_scalar_arithmetic": [],
"C64_ed25519_verify": [
"PrimInt63.add",
"PrimInt63.eqb",
"PrimInt63.int",
"PrimInt63.land",
"PrimInt63.leb",
"PrimInt63.lor",
"PrimInt63.lsl",
"PrimInt63.lsr",
"PrimInt63.ltb",
"PrimInt63.mul",
"PrimInt63.sub",
"Uint63.add_spec",
"Uint63.eqb_correct",
"Uint63.eqb_refl",
"Uint63.land_spec",
"Uint63.leb_spec",
"Uint63.lor_spec",
"Uint63.lsl_spec",
"Uint63.lsr_spec",
"Uint63.ltb_spec",
"Uint63.mul_spec",
"Uint63.of_to_Z",
"Uint63.sub_spec"
],
"C65_ed25519_malleable_refuted": [
"PrimInt63.add",
"PrimInt63.eqb",
"PrimInt63.int",
"PrimInt63.land",
"PrimInt63.leb",
"PrimInt63.lor",
"PrimInt63.lsl",
"PrimInt63.lsr",
"PrimInt63.ltb",
"PrimInt63.mul",
"PrimInt63.sub",
"Uint63.add_spec",
"Uint63.eqb_correct",
"Uint63.eqb_refl",
"Uint63.land_spec",
"Uint63.leb_spec",
"Uint63.lor_spec",
"Uint63.lsl_spec",
"Uint63.lsr_spec",
"Uint63.ltb_spec",
"Uint63.mul_spec",
"Uint63.of_to_Z",
"Uint63.sub_spec"
],
"C66_ed25519_points_partial": [
"PrimInt63.add",
"PrimInt63.eqb",
"PrimInt63.int",
"PrimInt63.land",
"PrimInt63.leb",
"PrimInt63.lor",
"PrimInt63.lsl",
"PrimInt63.lsr",
"PrimInt63.ltb",
"PrimInt63.mul",
"PrimInt63.sub",
"Uint63.add_spec",
"Uint63.eqb_correct",
"Uint63.eqb_refl",
"Uint63.land_spec",
"Uint63.leb_spec",
"Uint63.lor_spec",
"Uint63.lsl_spec",
"Uint63.lsr_spec",
"Uint63.ltb_spec",
"Uint63.mul_spec",
"Uint63.of_to_Z",
"Uint63.sub_spec"
],
"C67_sm2_encryption_standard_partial": [
"PrimInt63.add",
"PrimInt63.eqb",
"PrimInt63.int",
"PrimInt63.land",
"PrimInt63.leb",
"PrimInt63.lor",
"PrimInt63.lsl",
"PrimInt63.lsr",
"PrimInt63.ltb",
"PrimInt63.mul",
"PrimInt63.sub",
"Uint63.add_spec",
"Uint63.eqb_correct",
"Uint63.eqb_refl",
"Uint63.land_spec",
"Uint63.leb_spec",
"Uint63.lor_spec",
"Uint63.lsl_spec",
"Uint63.lsr_spec",
"Uint63.ltb_spec",
"Uint63.mul_spec",
"Uint63.of_to_Z",
"Uint63.sub_spec"
],
"C68_sm2_key_agreement_standard_partial": [
"PrimInt63.add",
"PrimInt63.eqb",
"PrimInt63.int",
"PrimInt63.land",
"PrimInt63.leb",
"PrimInt63.lor",
"PrimInt63.lsl",
"PrimInt63.lsr",
"PrimInt63.ltb",
"PrimInt63.mul",
"PrimInt63.sub",
"Uint63.add_spec",
"Uint63.eqb_correct",
"Uint63.eqb_refl",
"Uint63.land_spec",
"Uint63.leb_spec",
"Uint63.lor_spec",
"Uint63.lsl_spec",
"Uint63.lsr_spec",
"Uint63.ltb_spec",
"Uint63.mul_spec",
"Uint63.of_to_Z",
"Uint63.sub_spec"
],
"C45_pasta_fields": [
"PrimInt63.add",
"PrimInt63.eqb",
"PrimInt63.int",
"PrimInt63.land",
"PrimInt63.leb",
"PrimInt63.lor",
"PrimInt63.lsl",
"PrimInt63.lsr",
"PrimInt63.ltb",
"PrimInt63.mul",
"PrimInt63.sub",
"Uint63.add_spec",
"Uint63.eqb_correct",
"Uint63.eqb_refl",
"Uint63.land_spec",
"Uint63.leb_spec",
"Uint63.lor_spec",
"Uint63.lsl_spec",
"Uint63.lsr_spec",
"Uint63.ltb_spec",
"Uint63.mul_spec",
"Uint63.of_to_Z",
"Uint63.sub_spec"
],
"C45_pasta_inverse_sqrt": [
"PrimInt63.add",
"PrimInt63.eqb",
"PrimInt63.int",
"PrimInt63.land",
"PrimInt63.leb",
"PrimInt63.lor",
"PrimInt63.lsl",
"PrimInt63.lsr",
"PrimInt63.ltb",
"PrimInt63.mul",
"PrimInt63.sub",
"Uint63.add_spec",
"Uint63.eqb_correct",
"Uint63.eqb_refl",
"Uint63.land_spec",
"Uint63.leb_spec",
"Uint63.lor_spec",
"Uint63.lsl_spec",
"Uint63.lsr_spec",
"Uint63.ltb_spec",
"Uint63.mul_spec",
"Uint63.of_to_Z",
"Uint63.sub_spec"
],
"C46_pasta_sign": [
"PrimInt63.add",
"PrimInt63.eqb",
"PrimInt63.int",
"PrimInt63.land",
"PrimInt63.leb",
"PrimInt63.lor",
"PrimInt63.lsl",
"PrimInt63.lsr",
"PrimInt63.ltb",
"PrimInt63.mul",
"PrimInt63.sub",
"Uint63.add_spec",
"Uint63.eqb_correct",
"Uint63.eqb_refl",
"Uint63.land_spec",
"Uint63.leb_spec",
"Uint63.lor_spec",
"Uint63.lsl_spec",
"Uint63.lsr_spec",
"Uint63.ltb_spec",
"Uint63.mul_spec",
"Uint63.of_to_Z",
"Uint63.sub_spec"
],
"C46_pasta_roundtrip_partial": [
"PrimInt63.add",
"PrimInt63.eqb",
"PrimInt63.int",
"PrimInt63.land",
"PrimInt63.leb",
"PrimInt63.lor",
"PrimInt63.lsl",
"PrimInt63.lsr",
"PrimInt63.ltb",
"PrimInt63.mul",
"PrimInt63.sub",
"Uint63.add_spec",
"Uint63.eqb_correct",
"Uint63.eqb_refl",
"Uint63.land_spec",
"Uint63.leb_spec",
"Uint63.lor_spec",
"Uint63.lsl_spec",
"Uint63.lsr_spec",
"Uint63.ltb_spec",
"Uint63.mul_spec",
"Uint63.of_to_Z",
"Uint63.sub_spec"
],
"C47_pasta_binding_refuted": [
"PrimInt63.add",
"PrimInt63.eqb",
"PrimInt63.int",
"PrimInt63.land",
"PrimInt63.leb",
"PrimInt63.lor",
"PrimInt63.lsl",
"PrimInt63.lsr",
"PrimInt63.ltb",
"PrimInt63.mul",
"PrimInt63.sub",
"Uint63.add_spec",
"Uint63.eqb_correct",
"Uint63.eqb_refl",
"Uint63.land_spec",
"Uint63.leb_spec",
"Uint63.lor_spec",
"Uint63.lsl_spec",
"Uint63.lsr_spec",
"Uint63.ltb_spec",
"Uint63.mul_spec",
"Uint63.of_to_Z",
"Uint63.sub_spec"
],
"C47_pasta_verify_partial": [
"PrimInt63.add",
"PrimInt63.eqb",
"PrimInt63.int",
"PrimInt63.land",
"PrimInt63.leb",
"PrimInt63.lor",
"PrimInt63.lsl",
"PrimInt63.lsr",
"PrimInt63.ltb",
"PrimInt63.mul",
"PrimInt63.sub",
"Uint63.add_spec",
"Uint63.eqb_correct",
"Uint63.eqb_refl",
"Uint63.land_spec",
"Uint63.leb_spec",
"Uint63.lor_spec",
"Uint63.lsl_spec",
"Uint63.lsr_spec",
"Uint63.ltb_spec",
"Uint63.mul_spec",
"Uint63.of_to_Z",
"Uint63.sub_spec"
],
"C48_pasta_encodings_refuted": [
"PrimInt63.add",
"PrimInt63.eqb",
"PrimInt63.int",
"PrimInt63.land",
"PrimInt63.leb",
"PrimInt63.lor",
"PrimInt63.lsl",
"PrimInt63.lsr",
"PrimInt63.ltb",
"PrimInt63.mul",
"PrimInt63.sub",
"Uint63.add_spec",
"Uint63.eqb_correct",
"Uint63.eqb_refl",
"Uint63.land_spec",
"Uint63.leb_spec",
"Uint63.lor_spec",
"Uint63.lsl_spec",
"Uint63.lsr_spec",
"Uint63.ltb_spec",
"Uint63.mul_spec",
"Uint63.of_to_Z",
"Uint63.sub_spec"
],
"C48_pasta_encodings_partial": [],
"C49_pasta_decompress_refuted": [
"PrimInt63.add",
"PrimInt63.eqb",
"PrimInt63.int",
"PrimInt63.land",
"PrimInt63.leb",
"PrimInt63.lor",
"PrimInt63.lsl",
"PrimInt63.lsr",
"PrimInt63.ltb",
"PrimInt63.mul",
"PrimInt63.sub",
"Uint63.add_spec",
"Uint63.eqb_correct",
"Uint63.eqb_refl",
"Uint63.land_spec",
"Uint63.leb_spec",
"Uint63.lor_spec",
"Uint63.lsl_spec",
"Uint63.lsr_spec",
"Uint63.ltb_spec",
"Uint63.mul_spec",
"Uint63.of_to_Z",
"Uint63.sub_spec"
],
"C49_pasta_decompress_partial": [
"PrimInt63.add",
"PrimInt63.eqb",
"PrimInt63.int",
"PrimInt63.land",
"PrimInt63.leb",
"PrimInt63.lor",
"PrimInt63.lsl",
"PrimInt63.lsr",
"PrimInt63.ltb",
"PrimInt63.mul",
"PrimInt63.sub",
"Uint63.add_spec",
"Uint63.eqb_correct",
"Uint63.eqb_refl",
"Uint63.land_spec",
"Uint63.leb_spec",
"Uint63.lor_spec",
"Uint63.lsl_spec",
"Uint63.lsr_spec",
"Uint63.ltb_spec",
"Uint63.mul_spec",
"Uint63.of_to_Z",
"Uint63.sub_spec"
],
"C49_pasta_compress_roundtrip": [
"PrimInt63.add",
"PrimInt63.eqb",
"PrimInt63.int",
"PrimInt63.land",
"PrimInt63.leb",
"PrimInt63.lor",
"PrimInt63.lsl",
"PrimInt63.lsr",
"PrimInt63.ltb",
"PrimInt63.mul",
"PrimInt63.sub",
"Uint63.add_spec",
"Uint63.eqb_correct",
"Uint63.eqb_refl",
"Uint63.land_spec",
"Uint63.leb_spec",
"Uint63.lor_spec",
"Uint63.lsl_spec",
"Uint63.lsr_spec",
"Uint63.ltb_spec",
"Uint63.mul_spec",
"Uint63.of_to_Z",
"Uint63.sub_spec"
],
"C50_pasta_negate_refuted": [
"PrimInt63.add",
"PrimInt63.eqb",
"PrimInt63.int",
"PrimInt63.land",
"PrimInt63.leb",
"PrimInt63.lor",
"PrimInt63.lsl",
"PrimInt63.lsr",
"PrimInt63.ltb",
"PrimInt63.mul",
"PrimInt63.sub",
"Uint63.add_spec",
"Uint63.eqb_correct",
"Uint63.eqb_refl",
"Uint63.land_spec",
"Uint63.leb_spec",
"Uint63.lor_spec",
"Uint63.lsl_spec",
"Uint63.lsr_spec",
"Uint63.ltb_spec",
"Uint63.mul_spec",
"Uint63.of_to_Z",
"Uint63.sub_spec"
],
"C51_poseidon": [
"PrimInt63.add",
"PrimInt63.eqb",
"PrimInt63.int",
"PrimInt63.land",
"PrimInt63.leb",
"PrimInt63.lor",
"PrimInt63.lsl",
"PrimInt63.lsr",
"PrimInt63.ltb",
"PrimInt63.mul",
"PrimInt63.sub",
"Uint63.add_spec",
"Uint63.eqb_correct",
"Uint63.eqb_refl",
"Uint63.land_spec",
"Uint63.leb_spec",
"Uint63.lor_spec",
"Uint63.lsl_spec",
"Uint63.lsr_spec",
"Uint63.ltb_spec",
"Uint63.mul_spec",
"Uint63.of_to_Z",
"Uint63.sub_spec"
],
"C69_pasta_keygen": [
"PrimInt63.add",
"PrimInt63.eqb",
"PrimInt63.int",
"PrimInt63.land",
"PrimInt63.leb",
"PrimInt63.lor",
"PrimInt63.lsl",
"PrimInt63.lsr",
"PrimInt63.ltb",
"PrimInt63.mul",
"PrimInt63.sub",
"Uint63.add_spec",
"Uint63.eqb_correct",
"Uint63.eqb_refl",
"Uint63.land_spec",
"Uint63.leb_spec",
"Uint63.lor_spec",
"Uint63.lsl_spec",
"Uint63.lsr_spec",
"Uint63.ltb_spec",
"Uint63.mul_spec",
"Uint63.of_to_Z",
"Uint63.sub_spec"
],
"C70_pasta_points": [
"PrimInt63.add",
"PrimInt63.eqb",
"PrimInt63.int",
"PrimInt63.land",
"PrimInt63.leb",
"PrimInt63.lor",
"PrimInt63.lsl",
"PrimInt63.lsr",
"PrimInt63.ltb",
"PrimInt63.mul",
"PrimInt63.sub",
"Uint63.add_spec",
"Uint63.eqb_correct",
"Uint63.eqb_refl",
"Uint63.land_spec",
"Uint63.leb_spec",
"Uint63.lor_spec",
"Uint63.lsl_spec",
"Uint63.lsr_spec",
"Uint63.ltb_spec",
"Uint63.mul_spec",
"Uint63.of_to_Z",
"Uint63.sub_spec"
],
"C71_pasta_total": [
"PrimInt63.add",
"PrimInt63.eqb",
"PrimInt63.int",
"PrimInt63.land",
"PrimInt63.leb",
"PrimInt63.lor",
"PrimInt63.lsl",
"PrimInt63.lsr",
"PrimInt63.ltb",
"PrimInt63.mul",
"PrimInt63.sub",
"Uint63.add_spec",
"Uint63.eqb_correct",
"Uint63.eqb_refl",
"Uint63.land_spec",
"Uint63.leb_spec",
"Uint63.lor_spec",
"Uint63.lsl_spec",
"Uint63.lsr_spec",
"Uint63.ltb_spec",
"Uint63.mul_spec",
"Uint63.of_to_Z",
"Uint63.sub_spec"
],
"C55_portable_field": [],
"C55_forms": [],
"C72_portable_square_refuted": [],
"C72_portable_square_partial": [],
"C72_portable_sq_ok_partial": [],
"C73_amd64_linear_partial": [],
"C73_amd64_deterministic": [],
"C73_amd64_mulADX_refuted": [],
"C73_amd64_mulNoADX_refuted": [],
"C74_frames_partial": [],
"C74_frames_refuted": [],
"C52_expand": [],
"C52_empty": [],
"C52_hash_total": [],
"C53_separated": [],
"C53_signed_point": [],
"C54_never_crashes_refuted": [],
"C54_crash_set": [],
"C54_never_crashes_partial": [],
"C75_identity_refuted": [],
"C76_untagged_refuted": [],
"C43_inputs_unchanged_refuted": [],
"C43_inputs_unchanged_partial": [],
"C43_answer_partial": [],
"C77_csha_pub_partial": [
"PrimInt63.add",
"PrimInt63.eqb",
"PrimInt63.int",
"PrimInt63.land",
"PrimInt63.leb",
"PrimInt63.lor",
"PrimInt63.lsl",
"PrimInt63.lsr",
"PrimInt63.ltb",
"PrimInt63.mul",
"PrimInt63.sub",
"Uint63.add_spec",
"Uint63.eqb_correct",
"Uint63.eqb_refl",
"Uint63.land_spec",
"Uint63.leb_spec",
"Uint63.lor_spec",
"Uint63.lsl_spec",
"Uint63.lsr_spec",
"Uint63.ltb_spec",
"Uint63.mul_spec",
"Uint63.of_to_Z",
"Uint63.sub_spec"
],
"C77_csha_pub_length": [],
"C78_csha_key_unchanged_refuted": [],
"C78_csha_key_after": [],
"C78_csha_sign_key_after": [],
"C78_csha_key_unchanged_iff": [],
"C79_csha_verify_canonical": [],
"C79_csha_verify_order": [],
"C80_csha_sign_total": [
"PrimInt63.add",
"PrimInt63.eqb",
"PrimInt63.int",
"PrimInt63.land",
"PrimInt63.leb",
"PrimInt63.lor",
"PrimInt63.lsl",
"PrimInt63.lsr",
"PrimInt63.ltb",
"PrimInt63.mul",
"PrimInt63.sub",
"Uint63.add_spec",
"Uint63.eqb_correct",
"Uint63.eqb_refl",
"Uint63.land_spec",
"Uint63.leb_spec",
"Uint63.lor_spec",
"Uint63.lsl_spec",
"Uint63.lsr_spec",
"Uint63.ltb_spec",
"Uint63.mul_spec",
"Uint63.of_to_Z",
"Uint63.sub_spec"
],
"C80_csha_sign_partial": [
"PrimInt63.add",
"PrimInt63.eqb",
"PrimInt63.int",
"PrimInt63.land",
"PrimInt63.leb",
"PrimInt63.lor",
"PrimInt63.lsl",
"PrimInt63.lsr",
"PrimInt63.ltb",
"PrimInt63.mul",
"PrimInt63.sub",
"Uint63.add_spec",
"Uint63.eqb_correct",
"Uint63.eqb_refl",
"Uint63.land_spec",
"Uint63.leb_spec",
"Uint63.lor_spec",
"Uint63.lsl_spec",
"Uint63.lsr_spec",
"Uint63.ltb_spec",
"Uint63.mul_spec",
"Uint63.of_to_Z",
"Uint63.sub_spec"
],
"C81_csha_verify_partial": [
"PrimInt63.add",
"PrimInt63.eqb",
"PrimInt63.int",
"PrimInt63.land",
"PrimInt63.leb",
"PrimInt63.lor",
"PrimInt63.lsl",
"PrimInt63.lsr",
"PrimInt63.ltb",
"PrimInt63.mul",
"PrimInt63.sub",
"Uint63.add_spec",
"Uint63.eqb_correct",
"Uint63.eqb_refl",
"Uint63.land_spec",
"Uint63.leb_spec",
"Uint63.lor_spec",
"Uint63.lsl_spec",
"Uint63.lsr_spec",
"Uint63.ltb_spec",
"Uint63.mul_spec",
"Uint63.of_to_Z",
"Uint63.sub_spec"
],
"C82_csha_empty_refuted": [
"PrimInt63.add",
"PrimInt63.eqb",
"PrimInt63.int",
"PrimInt63.land",
"PrimInt63.leb",
"PrimInt63.lor",
"PrimInt63.lsl",
"PrimInt63.lsr",
"PrimInt63.ltb",
"PrimInt63.mul",
"PrimInt63.sub",
"Uint63.add_spec",
"Uint63.eqb_correct",
"Uint63.eqb_refl",
"Uint63.land_spec",
"Uint63.leb_spec",
"Uint63.lor_spec",
"Uint63.lsl_spec",
"Uint63.lsr_spec",
"Uint63.ltb_spec",
"Uint63.mul_spec",
"Uint63.of_to_Z",
"Uint63.sub_spec"
],
"C82_csha_roundtrip_partial": [
"PrimInt63.add",
"PrimInt63.eqb",
"PrimInt63.int",
"PrimInt63.land",
"PrimInt63.leb",
"PrimInt63.lor",
"PrimInt63.lsl",
"PrimInt63.lsr",
"PrimInt63.ltb",
"PrimInt63.mul",
"PrimInt63.sub",
"Uint63.add_spec",
"Uint63.eqb_correct",
"Uint63.eqb_refl",
"Uint63.land_spec",
"Uint63.leb_spec",
"Uint63.lor_spec",
"Uint63.lsl_spec",
"Uint63.lsr_spec",
"Uint63.ltb_spec",
"Uint63.mul_spec",
"Uint63.of_to_Z",
"Uint63.sub_spec"
],
"C83_keccak_amd64": [],
"C83_keccak_amd64_memory": [],
"C84_signature_forms": [
"PrimInt63.add",
"PrimInt63.eqb",
"PrimInt63.int",
"PrimInt63.land",
"PrimInt63.leb",
"PrimInt63.lor",
"PrimInt63.lsl",
"PrimInt63.lsr",
"PrimInt63.ltb",
"PrimInt63.mul",
"PrimInt63.sub",
"Uint63.add_spec",
"Uint63.eqb_correct",
"Uint63.eqb_refl",
"Uint63.land_spec",
"Uint63.leb_spec",
"Uint63.lor_spec",
"Uint63.lsl_spec",
"Uint63.lsr_spec",
"Uint63.ltb_spec",
"Uint63.mul_spec",
"Uint63.of_to_Z",
"Uint63.sub_spec"
],
"C84_one_form": [
"PrimInt63.add",
"PrimInt63.eqb",
"PrimInt63.int",
"PrimInt63.land",
"PrimInt63.leb",
"PrimInt63.lor",
"PrimInt63.lsl",
"PrimInt63.lsr",
"PrimInt63.ltb",
"PrimInt63.mul",
"PrimInt63.sub",
"Uint63.add_spec",
"Uint63.eqb_correct",
"Uint63.eqb_refl",
"Uint63.land_spec",
"Uint63.leb_spec",
"Uint63.lor_spec",
"Uint63.lsl_spec",
"Uint63.lsr_spec",
"Uint63.ltb_spec",
"Uint63.mul_spec",
"Uint63.of_to_Z",
"Uint63.sub_spec"
],
"C85_refused": [
"PrimInt63.add",
"PrimInt63.eqb",
"PrimInt63.int",
"PrimInt63.land",
"PrimInt63.leb",
"PrimInt63.lor",
"PrimInt63.lsl",
"PrimInt63.lsr",
"PrimInt63.ltb",
"PrimInt63.mul",
"PrimInt63.sub",
"Uint63.add_spec",
"Uint63.eqb_correct",
"Uint63.eqb_refl",
"Uint63.land_spec",
"Uint63.leb_spec",
"Uint63.lor_spec",
"Uint63.lsl_spec",
"Uint63.lsr_spec",
"Uint63.ltb_spec",
"Uint63.mul_spec",
"Uint63.of_to_Z",
"Uint63.sub_spec"
],
"C85_sum_partial": [
"PrimInt63.add",
"PrimInt63.eqb",
"PrimInt63.int",
"PrimInt63.land",
"PrimInt63.leb",
"PrimInt63.lor",
"PrimInt63.lsl",
"PrimInt63.lsr",
"PrimInt63.ltb",
"PrimInt63.mul",
"PrimInt63.sub",
"Uint63.add_spec",
"Uint63.eqb_correct",
"Uint63.eqb_refl",
"Uint63.land_spec",
"Uint63.leb_spec",
"Uint63.lor_spec",
"Uint63.lsl_spec",
"Uint63.lsr_spec",
"Uint63.ltb_spec",
"Uint63.mul_spec",
"Uint63.of_to_Z",
"Uint63.sub_spec"
],
"C85_sum_exact_partial": [
"PrimInt63.add",
"PrimInt63.eqb",
"PrimInt63.int",
"PrimInt63.land",
"PrimInt63.leb",
"PrimInt63.lor",
"PrimInt63.lsl",
"PrimInt63.lsr",
"PrimInt63.ltb",
"PrimInt63.mul",
"PrimInt63.sub",
"Uint63.add_spec",
"Uint63.eqb_correct",
"Uint63.eqb_refl",
"Uint63.land_spec",
"Uint63.leb_spec",
"Uint63.lor_spec",
"Uint63.lsl_spec",
"Uint63.lsr_spec",
"Uint63.ltb_spec",
"Uint63.mul_spec",
"Uint63.of_to_Z",
"Uint63.sub_spec"
],
"C86_accepted_partial": [
"PrimInt63.add",
"PrimInt63.eqb",
"PrimInt63.int",
"PrimInt63.land",
"PrimInt63.leb",
"PrimInt63.lor",
"PrimInt63.lsl",
"PrimInt63.lsr",
"PrimInt63.ltb",
"PrimInt63.mul",
"PrimInt63.sub",
"Uint63.add_spec",
"Uint63.eqb_correct",
"Uint63.eqb_refl",
"Uint63.land_spec",
"Uint63.leb_spec",
"Uint63.lor_spec",
"Uint63.lsl_spec",
"Uint63.lsr_spec",
"Uint63.ltb_spec",
"Uint63.mul_spec",
"Uint63.of_to_Z",
"Uint63.sub_spec"
],
"C86_accepted_exact_partial": [
"PrimInt63.add",
"PrimInt63.eqb",
"PrimInt63.int",
"PrimInt63.land",
"PrimInt63.leb",
"PrimInt63.lor",
"PrimInt63.lsl",
"PrimInt63.lsr",
"PrimInt63.ltb",
"PrimInt63.mul",
"PrimInt63.sub",
"Uint63.add_spec",
"Uint63.eqb_correct",
"Uint63.eqb_refl",
"Uint63.land_spec",
"Uint63.leb_spec",
"Uint63.lor_spec",
"Uint63.lsl_spec",
"Uint63.lsr_spec",
"Uint63.ltb_spec",
"Uint63.mul_spec",
"Uint63.of_to_Z",
"Uint63.sub_spec"
],
"C87_signature_partial": [
"PrimInt63.add",
"PrimInt63.eqb",
"PrimInt63.int",
"PrimInt63.land",
"PrimInt63.leb",
"PrimInt63.lor",
"PrimInt63.lsl",
"PrimInt63.lsr",
"PrimInt63.ltb",
"PrimInt63.mul",
"PrimInt63.sub",
"Uint63.add_spec",
"Uint63.eqb_correct",
"Uint63.eqb_refl",
"Uint63.land_spec",
"Uint63.leb_spec",
"Uint63.lor_spec",
"Uint63.lsl_spec",
"Uint63.lsr_spec",
"Uint63.ltb_spec",
"Uint63.mul_spec",
"Uint63.of_to_Z",
"Uint63.sub_spec"
],
"C87_roundtrip_partial": [
"PrimInt63.add",
"PrimInt63.eqb",
"PrimInt63.int",
"PrimInt63.land",
"PrimInt63.leb",
"PrimInt63.lor",
"PrimInt63.lsl",
"PrimInt63.lsr",
"PrimInt63.ltb",
"PrimInt63.mul",
"PrimInt63.sub",
"Uint63.add_spec",
"Uint63.eqb_correct",
"Uint63.eqb_refl",
"Uint63.land_spec",
"Uint63.leb_spec",
"Uint63.lor_spec",
"Uint63.lsl_spec",
"Uint63.lsr_spec",
"Uint63.ltb_spec",
"Uint63.mul_spec",
"Uint63.of_to_Z",
"Uint63.sub_spec"
],
"C87_multisig_partial": [
"PrimInt63.add",
"PrimInt63.eqb",
"PrimInt63.int",
"PrimInt63.land",
"PrimInt63.leb",
"PrimInt63.lor",
"PrimInt63.lsl",
"PrimInt63.lsr",
"PrimInt63.ltb",
"PrimInt63.mul",
"PrimInt63.sub",
"Uint63.add_spec",
"Uint63.eqb_correct",
"Uint63.eqb_refl",
"Uint63.land_spec",
"Uint63.leb_spec",
"Uint63.lor_spec",
"Uint63.lsl_spec",
"Uint63.lsr_spec",
"Uint63.ltb_spec",
"Uint63.mul_spec",
"Uint63.of_to_Z",
"Uint63.sub_spec"
],
"C88_hash_to_field": [],
"C89_map_total": [
"PrimInt63.add",
"PrimInt63.eqb",
"PrimInt63.int",
"PrimInt63.land",
"PrimInt63.leb",
"PrimInt63.lor",
"PrimInt63.lsl",
"PrimInt63.lsr",
"PrimInt63.ltb",
"PrimInt63.mul",
"PrimInt63.sub",
"Uint63.add_spec",
"Uint63.eqb_correct",
"Uint63.eqb_refl",
"Uint63.land_spec",
"Uint63.leb_spec",
"Uint63.lor_spec",
"Uint63.lsl_spec",
"Uint63.lsr_spec",
"Uint63.ltb_spec",
"Uint63.mul_spec",
"Uint63.of_to_Z",
"Uint63.sub_spec"
],
"C89_encode_partial": [
"PrimInt63.add",
"PrimInt63.eqb",
"PrimInt63.int",
"PrimInt63.land",
"PrimInt63.leb",
"PrimInt63.lor",
"PrimInt63.lsl",
"PrimInt63.lsr",
"PrimInt63.ltb",
"PrimInt63.mul",
"PrimInt63.sub",
"Uint63.add_spec",
"Uint63.eqb_correct",
"Uint63.eqb_refl",
"Uint63.land_spec",
"Uint63.leb_spec",
"Uint63.lor_spec",
"Uint63.lsl_spec",
"Uint63.lsr_spec",
"Uint63.ltb_spec",
"Uint63.mul_spec",
"Uint63.of_to_Z",
"Uint63.sub_spec"
],
"C89_zero_refuted": [
"PrimInt63.add",
"PrimInt63.eqb",
"PrimInt63.int",
"PrimInt63.land",
"PrimInt63.leb",
"PrimInt63.lor",
"PrimInt63.lsl",
"PrimInt63.lsr",
"PrimInt63.ltb",
"PrimInt63.mul",
"PrimInt63.sub",
"Uint63.add_spec",
"Uint63.eqb_correct",
"Uint63.eqb_refl",
"Uint63.land_spec",
"Uint63.leb_spec",
"Uint63.lor_spec",
"Uint63.lsl_spec",
"Uint63.lsr_spec",
"Uint63.ltb_spec",
"Uint63.mul_spec",
"Uint63.of_to_Z",
"Uint63.sub_spec"
],
"C90_hash_partial": [
"PrimInt63.add",
"PrimInt63.eqb",
"PrimInt63.int",
"PrimInt63.land",
"PrimInt63.leb",
"PrimInt63.lor",
"PrimInt63.lsl",
"PrimInt63.lsr",
"PrimInt63.ltb",
"PrimInt63.mul",
"PrimInt63.sub",
"Uint63.add_spec",
"Uint63.eqb_correct",
"Uint63.eqb_refl",
"Uint63.land_spec",
"Uint63.leb_spec",
"Uint63.lor_spec",
"Uint63.lsl_spec",
"Uint63.lsr_spec",
"Uint63.ltb_spec",
"Uint63.mul_spec",
"Uint63.of_to_Z",
"Uint63.sub_spec"
],
"C91_roundtrip_partial": [
"PrimInt63.add",
"PrimInt63.eqb",
"PrimInt63.int",
"PrimInt63.land",
"PrimInt63.leb",
"PrimInt63.lor",
"PrimInt63.lsl",
"PrimInt63.lsr",
"PrimInt63.ltb",
"PrimInt63.mul",
"PrimInt63.sub",
"Uint63.add_spec",
"Uint63.eqb_correct",
"Uint63.eqb_refl",
"Uint63.land_spec",
"Uint63.leb_spec",
"Uint63.lor_spec",
"Uint63.lsl_spec",
"Uint63.lsr_spec",
"Uint63.ltb_spec",
"Uint63.mul_spec",
"Uint63.of_to_Z",
"Uint63.sub_spec"
],
"C92_field": [
"PrimInt63.add",
"PrimInt63.eqb",
"PrimInt63.int",
"PrimInt63.land",
"PrimInt63.leb",
"PrimInt63.lor",
"PrimInt63.lsl",
"PrimInt63.lsr",
"PrimInt63.ltb",
"PrimInt63.mul",
"PrimInt63.sub",
"Uint63.add_spec",
"Uint63.eqb_correct",
"Uint63.eqb_refl",
"Uint63.land_spec",
"Uint63.leb_spec",
"Uint63.lor_spec",
"Uint63.lsl_spec",
"Uint63.lsr_spec",
"Uint63.ltb_spec",
"Uint63.mul_spec",
"Uint63.of_to_Z",
"Uint63.sub_spec"
],
"C92_powers": [
"PrimInt63.add",
"PrimInt63.eqb",
"PrimInt63.int",
"PrimInt63.land",
"PrimInt63.leb",
"PrimInt63.lor",
"PrimInt63.lsl",
"PrimInt63.lsr",
"PrimInt63.ltb",
"PrimInt63.mul",
"PrimInt63.sub",
"Uint63.add_spec",
"Uint63.eqb_correct",
"Uint63.eqb_refl",
"Uint63.land_spec",
"Uint63.leb_spec",
"Uint63.lor_spec",
"Uint63.lsl_spec",
"Uint63.lsr_spec",
"Uint63.ltb_spec",
"Uint63.mul_spec",
"Uint63.of_to_Z",
"Uint63.sub_spec"
],
"C92_square_refuted": [
"PrimInt63.add",
"PrimInt63.eqb",
"PrimInt63.int",
"PrimInt63.land",
"PrimInt63.leb",
"PrimInt63.lor",
"PrimInt63.lsl",
"PrimInt63.lsr",
"PrimInt63.ltb",
"PrimInt63.mul",
"PrimInt63.sub",
"Uint63.add_spec",
"Uint63.eqb_correct",
"Uint63.eqb_refl",
"Uint63.land_spec",
"Uint63.leb_spec",
"Uint63.lor_spec",
"Uint63.lsl_spec",
"Uint63.lsr_spec",
"Uint63.ltb_spec",
"Uint63.mul_spec",
"Uint63.of_to_Z",
"Uint63.sub_spec"
],
"C92_inverse_exact_partial": [
"PrimInt63.add",
"PrimInt63.eqb",
"PrimInt63.int",
"PrimInt63.land",
"PrimInt63.leb",
"PrimInt63.lor",
"PrimInt63.lsl",
"PrimInt63.lsr",
"PrimInt63.ltb",
"PrimInt63.mul",
"PrimInt63.sub",
"Uint63.add_spec",
"Uint63.eqb_correct",
"Uint63.eqb_refl",
"Uint63.land_spec",
"Uint63.leb_spec",
"Uint63.lor_spec",
"Uint63.lsl_spec",
"Uint63.lsr_spec",
"Uint63.ltb_spec",
"Uint63.mul_spec",
"Uint63.of_to_Z",
"Uint63.sub_spec"
],
"C92_bytes": [
"PrimInt63.add",
"PrimInt63.eqb",
"PrimInt63.int",
"PrimInt63.land",
"PrimInt63.leb",
"PrimInt63.lor",
"PrimInt63.lsl",
"PrimInt63.lsr",
"PrimInt63.ltb",
"PrimInt63.mul",
"PrimInt63.sub",
"Uint63.add_spec",
"Uint63.eqb_correct",
"Uint63.eqb_refl",
"Uint63.land_spec",
"Uint63.leb_spec",
"Uint63.lor_spec",
"Uint63.lsl_spec",
"Uint63.lsr_spec",
"Uint63.ltb_spec",
"Uint63.mul_spec",
"Uint63.of_to_Z",
"Uint63.sub_spec"
],
"C93_result_exact_partial": [
"PrimInt63.add",
"PrimInt63.eqb",
"PrimInt63.int",
"PrimInt63.land",
"PrimInt63.leb",
"PrimInt63.lor",
"PrimInt63.lsl",
"PrimInt63.lsr",
"PrimInt63.ltb",
"PrimInt63.mul",
"PrimInt63.sub",
"Uint63.add_spec",
"Uint63.eqb_correct",
"Uint63.eqb_refl",
"Uint63.land_spec",
"Uint63.leb_spec",
"Uint63.lor_spec",
"Uint63.lsl_spec",
"Uint63.lsr_spec",
"Uint63.ltb_spec",
"Uint63.mul_spec",
"Uint63.of_to_Z",
"Uint63.sub_spec"
],
"C93_decides_exact_partial": [
"PrimInt63.add",
"PrimInt63.eqb",
"PrimInt63.int",
"PrimInt63.land",
"PrimInt63.leb",
"PrimInt63.lor",
"PrimInt63.lsl",
"PrimInt63.lsr",
"PrimInt63.ltb",
"PrimInt63.mul",
"PrimInt63.sub",
"Uint63.add_spec",
"Uint63.eqb_correct",
"Uint63.eqb_refl",
"Uint63.land_spec",
"Uint63.leb_spec",
"Uint63.lor_spec",
"Uint63.lsl_spec",
"Uint63.lsr_spec",
"Uint63.ltb_spec",
"Uint63.mul_spec",
"Uint63.of_to_Z",
"Uint63.sub_spec"
],
"C93_valid_exact_partial": [
"PrimInt63.add",
"PrimInt63.eqb",
"PrimInt63.int",
"PrimInt63.land",
"PrimInt63.leb",
"PrimInt63.lor",
"PrimInt63.lsl",
"PrimInt63.lsr",
"PrimInt63.ltb",
"PrimInt63.mul",
"PrimInt63.sub",
"Uint63.add_spec",
"Uint63.eqb_correct",
"Uint63.eqb_refl",
"Uint63.land_spec",
"Uint63.leb_spec",
"Uint63.lor_spec",
"Uint63.lsl_spec",
"Uint63.lsr_spec",
"Uint63.ltb_spec",
"Uint63.mul_spec",
"Uint63.of_to_Z",
"Uint63.sub_spec"
],
"C94_append_exact_partial": [
"PrimInt63.add",
"PrimInt63.eqb",
"PrimInt63.int",
"PrimInt63.land",
"PrimInt63.leb",
"PrimInt63.lor",
"PrimInt63.lsl",
"PrimInt63.lsr",
"PrimInt63.ltb",
"PrimInt63.mul",
"PrimInt63.sub",
"Uint63.add_spec",
"Uint63.eqb_correct",
"Uint63.eqb_refl",
"Uint63.land_spec",
"Uint63.leb_spec",
"Uint63.lor_spec",
"Uint63.lsl_spec",
"Uint63.lsr_spec",
"Uint63.ltb_spec",
"Uint63.mul_spec",
"Uint63.of_to_Z",
"Uint63.sub_spec"
],
"C94_order_exact_partial": [
"PrimInt63.add",
"PrimInt63.eqb",
"PrimInt63.int",
"PrimInt63.land",
"PrimInt63.leb",
"PrimInt63.lor",
"PrimInt63.lsl",
"PrimInt63.lsr",
"PrimInt63.ltb",
"PrimInt63.mul",
"PrimInt63.sub",
"Uint63.add_spec",
"Uint63.eqb_correct",
"Uint63.eqb_refl",
"Uint63.land_spec",
"Uint63.leb_spec",
"Uint63.lor_spec",
"Uint63.lsl_spec",
"Uint63.lsr_spec",
"Uint63.ltb_spec",
"Uint63.mul_spec",
"Uint63.of_to_Z",
"Uint63.sub_spec"
],
"C94_negated_exact_partial": [
"PrimInt63.add",
"PrimInt63.eqb",
"PrimInt63.int",
"PrimInt63.land",
"PrimInt63.leb",
"PrimInt63.lor",
"PrimInt63.lsl",
"PrimInt63.lsr",
"PrimInt63.ltb",
"PrimInt63.mul",
"PrimInt63.sub",
"Uint63.add_spec",
"Uint63.eqb_correct",
"Uint63.eqb_refl",
"Uint63.land_spec",
"Uint63.leb_spec",
"Uint63.lor_spec",
"Uint63.lsl_spec",
"Uint63.lsr_spec",
"Uint63.ltb_spec",
"Uint63.mul_spec",
"Uint63.of_to_Z",
"Uint63.sub_spec"
],
"C95_verify_exact_partial": [
"PrimInt63.add",
"PrimInt63.eqb",
"PrimInt63.int",
"PrimInt63.land",
"PrimInt63.leb",
"PrimInt63.lor",
"PrimInt63.lsl",
"PrimInt63.lsr",
"PrimInt63.ltb",
"PrimInt63.mul",
"PrimInt63.sub",
"Uint63.add_spec",
"Uint63.eqb_correct",
"Uint63.eqb_refl",
"Uint63.land_spec",
"Uint63.leb_spec",
"Uint63.lor_spec",
"Uint63.lsl_spec",
"Uint63.lsr_spec",
"Uint63.ltb_spec",
"Uint63.mul_spec",
"Uint63.of_to_Z",
"Uint63.sub_spec"
],
"C96_sha3_input": [],
"C96_sha3_output": [],
"C97_exp": [
"PrimInt63.add",
"PrimInt63.eqb",
"PrimInt63.int",
"PrimInt63.land",
"PrimInt63.leb",
"PrimInt63.lor",
"PrimInt63.lsl",
"PrimInt63.lsr",
"PrimInt63.ltb",
"PrimInt63.mul",
"PrimInt63.sub",
"Uint63.add_spec",
"Uint63.eqb_correct",
"Uint63.eqb_refl",
"Uint63.land_spec",
"Uint63.leb_spec",
"Uint63.lor_spec",
"Uint63.lsl_spec",
"Uint63.lsr_spec",
"Uint63.ltb_spec",
"Uint63.mul_spec",
"Uint63.of_to_Z",
"Uint63.sub_spec"
],
"C97_exp_partial": [
"PrimInt63.add",
"PrimInt63.eqb",
"PrimInt63.int",
"PrimInt63.land",
"PrimInt63.leb",
"PrimInt63.lor",
"PrimInt63.lsl",
"PrimInt63.lsr",
"PrimInt63.ltb",
"PrimInt63.mul",
"PrimInt63.sub",
"Uint63.add_spec",
"Uint63.eqb_correct",
"Uint63.eqb_refl",
"Uint63.land_spec",
"Uint63.leb_spec",
"Uint63.lor_spec",
"Uint63.lsl_spec",
"Uint63.lsr_spec",
"Uint63.ltb_spec",
"Uint63.mul_spec",
"Uint63.of_to_Z",
"Uint63.sub_spec"
],
"C97_negative_partial": [
"PrimInt63.add",
"PrimInt63.eqb",
"PrimInt63.int",
"PrimInt63.land",
"PrimInt63.leb",
"PrimInt63.lor",
"PrimInt63.lsl",
"PrimInt63.lsr",
"PrimInt63.ltb",
"PrimInt63.mul",
"PrimInt63.sub",
"Uint63.add_spec",
"Uint63.eqb_correct",
"Uint63.eqb_refl",
"Uint63.land_spec",
"Uint63.leb_spec",
"Uint63.lor_spec",
"Uint63.lsl_spec",
"Uint63.lsr_spec",
"Uint63.ltb_spec",
"Uint63.mul_spec",
"Uint63.of_to_Z",
"Uint63.sub_spec"
],
"C97_negative_refuted": [
"PrimInt63.add",
"PrimInt63.eqb",
"PrimInt63.int",
"PrimInt63.land",
"PrimInt63.leb",
"PrimInt63.lor",
"PrimInt63.lsl",
"PrimInt63.lsr",
"PrimInt63.ltb",
"PrimInt63.mul",
"PrimInt63.sub",
"Uint63.add_spec",
"Uint63.eqb_correct",
"Uint63.eqb_refl",
"Uint63.land_spec",
"Uint63.leb_spec",
"Uint63.lor_spec",
"Uint63.lsl_spec",
"Uint63.lsr_spec",
"Uint63.ltb_spec",
"Uint63.mul_spec",
"Uint63.of_to_Z",
"Uint63.sub_spec"
],
"C98_exponents": [
"PrimInt63.add",
"PrimInt63.eqb",
"PrimInt63.int",
"PrimInt63.land",
"PrimInt63.leb",
"PrimInt63.lor",
"PrimInt63.lsl",
"PrimInt63.lsr",
"PrimInt63.ltb",
"PrimInt63.mul",
"PrimInt63.sub",
"Uint63.add_spec",
"Uint63.eqb_correct",
"Uint63.eqb_refl",
"Uint63.land_spec",
"Uint63.leb_spec",
"Uint63.lor_spec",
"Uint63.lsl_spec",
"Uint63.lsr_spec",
"Uint63.ltb_spec",
"Uint63.mul_spec",
"Uint63.of_to_Z",
"Uint63.sub_spec"
],
"C98_generates": [
"PrimInt63.add",
"PrimInt63.eqb",
"PrimInt63.int",
"PrimInt63.land",
"PrimInt63.leb",
"PrimInt63.lor",
"PrimInt63.lsl",
"PrimInt63.lsr",
"PrimInt63.ltb",
"PrimInt63.mul",
"PrimInt63.sub",
"Uint63.add_spec",
"Uint63.eqb_correct",
"Uint63.eqb_refl",
"Uint63.land_spec",
"Uint63.leb_spec",
"Uint63.lor_spec",
"Uint63.lsl_spec",
"Uint63.lsr_spec",
"Uint63.ltb_spec",
"Uint63.mul_spec",
"Uint63.of_to_Z",
"Uint63.sub_spec"
],
"C98_strings": [
"PrimInt63.add",
"PrimInt63.eqb",
"PrimInt63.int",
"PrimInt63.land",
"PrimInt63.leb",
"PrimInt63.lor",
"PrimInt63.lsl",
"PrimInt63.lsr",
"PrimInt63.ltb",
"PrimInt63.mul",
"PrimInt63.sub",
"Uint63.add_spec",
"Uint63.eqb_correct",
"Uint63.eqb_refl",
"Uint63.land_spec",
"Uint63.leb_spec",
"Uint63.lor_spec",
"Uint63.lsl_spec",
"Uint63.lsr_spec",
"Uint63.ltb_spec",
"Uint63.mul_spec",
"Uint63.of_to_Z",
"Uint63.sub_spec"
],
"C99_one_key_partial": [
"PrimInt63.add",
"PrimInt63.eqb",
"PrimInt63.int",
"PrimInt63.land",
"PrimInt63.leb",
"PrimInt63.lor",
"PrimInt63.lsl",
"PrimInt63.lsr",
"PrimInt63.ltb",
"PrimInt63.mul",
"PrimInt63.sub",
"Uint63.add_spec",
"Uint63.eqb_correct",
"Uint63.eqb_refl",
"Uint63.land_spec",
"Uint63.leb_spec",
"Uint63.lor_spec",
"Uint63.lsl_spec",
"Uint63.lsr_spec",
"Uint63.ltb_spec",
"Uint63.mul_spec",
"Uint63.of_to_Z",
"Uint63.sub_spec"
],
"C99_count_partial": [
"PrimInt63.add",
"PrimInt63.eqb",
"PrimInt63.int",
"PrimInt63.land",
"PrimInt63.leb",
"PrimInt63.lor",
"PrimInt63.lsl",
"PrimInt63.lsr",
"PrimInt63.ltb",
"PrimInt63.mul",
"PrimInt63.sub",
"Uint63.add_spec",
"Uint63.eqb_correct",
"Uint63.eqb_refl",
"Uint63.land_spec",
"Uint63.leb_spec",
"Uint63.lor_spec",
"Uint63.lsl_spec",
"Uint63.lsr_spec",
"Uint63.ltb_spec",
"Uint63.mul_spec",
"Uint63.of_to_Z",
"Uint63.sub_spec"
],
"C99_verify_partial": [
"PrimInt63.add",
"PrimInt63.eqb",
"PrimInt63.int",
"PrimInt63.land",
"PrimInt63.leb",
"PrimInt63.lor",
"PrimInt63.lsl",
"PrimInt63.lsr",
"PrimInt63.ltb",
"PrimInt63.mul",
"PrimInt63.sub",
"Uint63.add_spec",
"Uint63.eqb_correct",
"Uint63.eqb_refl",
"Uint63.land_spec",
"Uint63.leb_spec",
"Uint63.lor_spec",
"Uint63.lsl_spec",
"Uint63.lsr_spec",
"Uint63.ltb_spec",
"Uint63.mul_spec",
"Uint63.of_to_Z",
"Uint63.sub_spec"
],
"C100_signatures": [
"PrimInt63.add",
"PrimInt63.eqb",
"PrimInt63.int",
"PrimInt63.land",
"PrimInt63.leb",
"PrimInt63.lor",
"PrimInt63.lsl",
"PrimInt63.lsr",
"PrimInt63.ltb",
"PrimInt63.mul",
"PrimInt63.sub",
"Uint63.add_spec",
"Uint63.eqb_correct",
"Uint63.eqb_refl",
"Uint63.land_spec",
"Uint63.leb_spec",
"Uint63.lor_spec",
"Uint63.lsl_spec",
"Uint63.lsr_spec",
"Uint63.ltb_spec",
"Uint63.mul_spec",
"Uint63.of_to_Z",
"Uint63.sub_spec"
],
"C100_one_key_partial": [
"PrimInt63.add",
"PrimInt63.eqb",
"PrimInt63.int",
"PrimInt63.land",
"PrimInt63.leb",
"PrimInt63.lor",
"PrimInt63.lsl",
"PrimInt63.lsr",
"PrimInt63.ltb",
"PrimInt63.mul",
"PrimInt63.sub",
"Uint63.add_spec",
"Uint63.eqb_correct",
"Uint63.eqb_refl",
"Uint63.land_spec",
"Uint63.leb_spec",
"Uint63.lor_spec",
"Uint63.lsl_spec",
"Uint63.lsr_spec",
"Uint63.ltb_spec",
"Uint63.mul_spec",
"Uint63.of_to_Z",
"Uint63.sub_spec"
],
"C101_k1_one_key": [
"PrimInt63.add",
"PrimInt63.eqb",
"PrimInt63.int",
"PrimInt63.land",
"PrimInt63.leb",
"PrimInt63.lor",
"PrimInt63.lsl",
"PrimInt63.lsr",
"PrimInt63.ltb",
"PrimInt63.mul",
"PrimInt63.sub",
"Uint63.add_spec",
"Uint63.eqb_correct",
"Uint63.eqb_refl",
"Uint63.land_spec",
"Uint63.leb_spec",
"Uint63.lor_spec",
"Uint63.lsl_spec",
"Uint63.lsr_spec",
"Uint63.ltb_spec",
"Uint63.mul_spec",
"Uint63.of_to_Z",
"Uint63.sub_spec"
],
"C101_r1_one_key": [
"PrimInt63.add",
"PrimInt63.eqb",
"PrimInt63.int",
"PrimInt63.land",
"PrimInt63.leb",
"PrimInt63.lor",
"PrimInt63.lsl",
"PrimInt63.lsr",
"PrimInt63.ltb",
"PrimInt63.mul",
"PrimInt63.sub",
"Uint63.add_spec",
"Uint63.eqb_correct",
"Uint63.eqb_refl",
"Uint63.land_spec",
"Uint63.leb_spec",
"Uint63.lor_spec",
"Uint63.lsl_spec",
"Uint63.lsr_spec",
"Uint63.ltb_spec",
"Uint63.mul_spec",
"Uint63.of_to_Z",
"Uint63.sub_spec"
],
"C101_pasta_partial": [
"PrimInt63.add",
"PrimInt63.eqb",
"PrimInt63.int",
"PrimInt63.land",
"PrimInt63.leb",
"PrimInt63.lor",
"PrimInt63.lsl",
"PrimInt63.lsr",
"PrimInt63.ltb",
"PrimInt63.mul",
"PrimInt63.sub",
"Uint63.add_spec",
"Uint63.eqb_correct",
"Uint63.eqb_refl",
"Uint63.land_spec",
"Uint63.leb_spec",
"Uint63.lor_spec",
"Uint63.lsl_spec",
"Uint63.lsr_spec",
"Uint63.ltb_spec",
"Uint63.mul_spec",
"Uint63.of_to_Z",
"Uint63.sub_spec"
],
"C101_pasta_refuted": [
"PrimInt63.add",
"PrimInt63.eqb",
"PrimInt63.int",
"PrimInt63.land",
"PrimInt63.leb",
"PrimInt63.lor",
"PrimInt63.lsl",
"PrimInt63.lsr",
"PrimInt63.ltb",
"PrimInt63.mul",
"PrimInt63.sub",
"Uint63.add_spec",
"Uint63.eqb_correct",
"Uint63.eqb_refl",
"Uint63.land_spec",
"Uint63.leb_spec",
"Uint63.lor_spec",
"Uint63.lsl_spec",
"Uint63.lsr_spec",
"Uint63.ltb_spec",
"Uint63.mul_spec",
"Uint63.of_to_Z",
"Uint63.sub_spec"
],
"C102_k1_four_keys": [
"PrimInt63.add",
"PrimInt63.eqb",
"PrimInt63.int",
"PrimInt63.land",
"PrimInt63.leb",
"PrimInt63.lor",
"PrimInt63.lsl",
"PrimInt63.lsr",
"PrimInt63.ltb",
"PrimInt63.mul",
"PrimInt63.sub",
"Uint63.add_spec",
"Uint63.eqb_correct",
"Uint63.eqb_refl",
"Uint63.land_spec",
"Uint63.leb_spec",
"Uint63.lor_spec",
"Uint63.lsl_spec",
"Uint63.lsr_spec",
"Uint63.ltb_spec",
"Uint63.mul_spec",
"Uint63.of_to_Z",
"Uint63.sub_spec"
],
"C102_r1_four_keys": [
"PrimInt63.add",
"PrimInt63.eqb",
"PrimInt63.int",
"PrimInt63.land",
"PrimInt63.leb",
"PrimInt63.lor",
"PrimInt63.lsl",
"PrimInt63.lsr",
"PrimInt63.ltb",
"PrimInt63.mul",
"PrimInt63.sub",
"Uint63.add_spec",
"Uint63.eqb_correct",
"Uint63.eqb_refl",
"Uint63.land_spec",
"Uint63.leb_spec",
"Uint63.lor_spec",
"Uint63.lsl_spec",
"Uint63.lsr_spec",
"Uint63.ltb_spec",
"Uint63.mul_spec",
"Uint63.of_to_Z",
"Uint63.sub_spec"
],
"C102_k1_second_key": [
"PrimInt63.add",
"PrimInt63.eqb",
"PrimInt63.int",
"PrimInt63.land",
"PrimInt63.leb",
"PrimInt63.lor",
"PrimInt63.lsl",
"PrimInt63.lsr",
"PrimInt63.ltb",
"PrimInt63.mul",
"PrimInt63.sub",
"Uint63.add_spec",
"Uint63.eqb_correct",
"Uint63.eqb_refl",
"Uint63.land_spec",
"Uint63.leb_spec",
"Uint63.lor_spec",
"Uint63.lsl_spec",
"Uint63.lsr_spec",
"Uint63.ltb_spec",
"Uint63.mul_spec",
"Uint63.of_to_Z",
"Uint63.sub_spec"
],
"C102_r1_second_key": [
"PrimInt63.add",
"PrimInt63.eqb",
"PrimInt63.int",
"PrimInt63.land",
"PrimInt63.leb",
"PrimInt63.lor",
"PrimInt63.lsl",
"PrimInt63.lsr",
"PrimInt63.ltb",
"PrimInt63.mul",
"PrimInt63.sub",
"Uint63.add_spec",
"Uint63.eqb_correct",
"Uint63.eqb_refl",
"Uint63.land_spec",
"Uint63.leb_spec",
"Uint63.lor_spec",
"Uint63.lsl_spec",
"Uint63.lsr_spec",
"Uint63.ltb_spec",
"Uint63.mul_spec",
"Uint63.of_to_Z",
"Uint63.sub_spec"
],
"C103_k1_altered_refuted": [
"PrimInt63.add",
"PrimInt63.eqb",
"PrimInt63.int",
"PrimInt63.land",
"PrimInt63.leb",
"PrimInt63.lor",
"PrimInt63.lsl",
"PrimInt63.lsr",
"PrimInt63.ltb",
"PrimInt63.mul",
"PrimInt63.sub",
"Uint63.add_spec",
"Uint63.eqb_correct",
"Uint63.eqb_refl",
"Uint63.land_spec",
"Uint63.leb_spec",
"Uint63.lor_spec",
"Uint63.lsl_spec",
"Uint63.lsr_spec",
"Uint63.ltb_spec",
"Uint63.mul_spec",
"Uint63.of_to_Z",
"Uint63.sub_spec"
],
"C103_r1_altered_refuted": [
"PrimInt63.add",
"PrimInt63.eqb",
"PrimInt63.int",
"PrimInt63.land",
"PrimInt63.leb",
"PrimInt63.lor",
"PrimInt63.lsl",
"PrimInt63.lsr",
"PrimInt63.ltb",
"PrimInt63.mul",
"PrimInt63.sub",
"Uint63.add_spec",
"Uint63.eqb_correct",
"Uint63.eqb_refl",
"Uint63.land_spec",
"Uint63.leb_spec",
"Uint63.lor_spec",
"Uint63.lsl_spec",
"Uint63.lsr_spec",
"Uint63.ltb_spec",
"Uint63.mul_spec",
"Uint63.of_to_Z",
"Uint63.sub_spec"
],
"C103_k1_partial": [
"PrimInt63.add",
"PrimInt63.eqb",
"PrimInt63.int",
"PrimInt63.land",
"PrimInt63.leb",
"PrimInt63.lor",
"PrimInt63.lsl",
"PrimInt63.lsr",
"PrimInt63.ltb",
"PrimInt63.mul",
"PrimInt63.sub",
"Uint63.add_spec",
"Uint63.eqb_correct",
"Uint63.eqb_refl",
"Uint63.land_spec",
"Uint63.leb_spec",
"Uint63.lor_spec",
"Uint63.lsl_spec",
"Uint63.lsr_spec",
"Uint63.ltb_spec",
"Uint63.mul_spec",
"Uint63.of_to_Z",
"Uint63.sub_spec"
],
"C103_r1_partial": [
"PrimInt63.add",
"PrimInt63.eqb",
"PrimInt63.int",
"PrimInt63.land",
"PrimInt63.leb",
"PrimInt63.lor",
"PrimInt63.lsl",
"PrimInt63.lsr",
"PrimInt63.ltb",
"PrimInt63.mul",
"PrimInt63.sub",
"Uint63.add_spec",
"Uint63.eqb_correct",
"Uint63.eqb_refl",
"Uint63.land_spec",
"Uint63.leb_spec",
"Uint63.lor_spec",
"Uint63.lsl_spec",
"Uint63.lsr_spec",
"Uint63.ltb_spec",
"Uint63.mul_spec",
"Uint63.of_to_Z",
"Uint63.sub_spec"
]
}