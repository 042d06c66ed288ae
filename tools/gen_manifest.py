#!/usr/bin/env python3
"""Write MANIFEST.json from the table below. Run from the repository root."""
import json
P, Q, N = "proved", "partial", "not_applicable"
CLAIMS = [
 ("C01", P, ["C01_new", "C01_zero"], "Construction normalises and keeps the value; all lengths, all types."),
 ("C02", P, ["C02_eq", "C02_is_zero"], ""),
 ("C03", P, ["C03_cmp", "C03_cmp_eq"], ""),
 ("C04", P, ["C04_from"], ""),
 ("C05", P, ["C05_add"], ""),
 ("C06", P, ["C06_add_machine"], ""),
 ("C07", P, ["C07_comm", "C07_assoc", "C07_zero"], ""),
 ("C08", P, ["C08_sub"], ""),
 ("C09", Q, ["C09_refuted", "C09_partial"], "False as stated (refuted); the exact condition for a normalised difference is proved (iff)."),
 ("C10", Q, ["C10_normal_refuted", "C10_value_refuted", "C10_panic_refuted", "C10_partial", "C10_two_digits_partial"], "False as stated (refuted three ways); proved for n below the base except normal form of zero differences, characterised exactly; for decimal n of two digits the exact result of the code is proved."),
 ("C11", P, ["C11_mul_machine"], ""),
 ("C12", P, ["C12_mul_short"], "All digit vectors, also unnormalised ones."),
 ("C13", P, ["C13_mul_value"], "All sizes: schoolbook, Karatsuba and Toom-3."),
 ("C14", Q, ["C14_refuted", "C14_partial", "C14_exact_partial", "C14_computed", "C14_outcome", "C66_mul_exact"], "False as stated (refuted, 41 digits); proved up to 40 digits; the exact condition of the panic when a factor has fewer than 128 digits, and at every size (C66)."),
 ("C15", Q, ["C15_refuted", "C15_decimal_refuted", "C15_partial", "C15_equals_product_partial", "C15_total_partial", "C15_exact_partial", "C15_is_product_partial", "C15_exact_limit_partial", "C15_is_product_limit_partial"], "False as stated: wrong squares of 1132-digit numbers (refuted); proved up to 1131 digits, the exact limit, with the exact condition of a panic, and the same outcome as the product by itself."),
 ("C16", Q, ["C16_refuted", "C16_partial", "C16_total_partial", "C16_exact_partial"], "False as stated (the wrong square of C15 is a power, refuted); proved as long as no factor of more than 1131 digits is squared; under that condition pow panics exactly when one of its multiplications does and is right otherwise."),
 ("C17", Q, ["C17_panic_refuted", "C17_value_refuted", "C17_partial", "C17_two_digits_partial", "C17_divisors", "C17_self"], "False for some two-digit decimal divisors (refuted); proved for every divisor below the base and for two-digit divisors that scale; a two-digit divisor that does not scale is not even divided correctly by itself, so the condition is exact."),
 ("C18", Q, ["C18_refuted", "C18_panic_refuted", "C18_large_refuted", "C18_partial", "C18_mid_partial", "C18_large_partial", "C18_exact_partial", "C18_tied_partial", "C18_tied_operator_partial", "C18_mid_exact_partial", "C18_large_tied_partial", "C18_large_tied_operator_partial", "C18_everywhere_exact_partial", "C68_binary", "C68_untied", "C18_C19_smaller"], "False as stated (wrong quotients, and a panic from 20 digits on). Proved for divisors of up to 80 digits when no partial remainder ties with its divisor, and proved that with a tie no returned quotient is right, so the condition is exact from 2 to 80 digits; at every size, division is right exactly when there is no tie and no product of the recursive division stops (C18_everywhere_exact_partial); proved whenever the dividend is smaller."),
 ("C19", Q, ["C19_refuted", "C19_digits_refuted", "C19_partial", "C19_divisors_partial", "C19_self", "C19_mid_partial", "C19_mid_tied_partial", "C19_large_partial", "C19_mid_exact_partial", "C19_large_exact_partial", "C19_debug_exact_partial", "C68_decimal", "C68_decimal_stops", "C18_C19_smaller"], "False as stated (wrong quotients, digits above the base). For divisors that scale: proved below 20 digits, where a divisor that does not scale is not even divided correctly by itself; up to 80 digits the exact condition of an index panic, all other divisions being right; beyond, the exact condition of a multiplication panic too (C68). Proved whenever the dividend is smaller. In debug builds the other divisors make the division panic, so the condition is exact there (with the exception of C54)."),
 ("C20", Q, ["C20_refuted", "C20_zero_divisor", "C20_div_error", "C20_rem_error"], "The error is reported exactly for a zero divisor; false that div_assign_big leaves the dividend unchanged (refuted); it always becomes zeros."),
 ("C21", Q, ["C21_refuted", "C21_shl_binary", "C21_shl_decimal_partial", "C21_shl_decimal_total_partial", "C21_decimal_refuted", "C21_decimal_exact_partial"], "Normal form is false for zero of a binary type (refuted); values proved, for decimal types up to the squaring limit of C15, where the multiplication can also panic (refuted); the exact condition for that up to the same limit."),
 ("C22", Q, ["C22_refuted", "C22_refuted_decimal", "C22_partial", "C22_panics"], "False as stated; proved exactly on the shift amounts where the code does not panic."),
 ("C23", P, ["C23_parse_decimal"], ""),
 ("C24", P, ["C24_parse_hex"], ""),
 ("C25", Q, ["C25_refuted", "C25_empty_refuted", "C25_never_panics", "C25_partial", "C25_exact_partial"], "False as stated: a plus sign inside a numeral and empty numerals are accepted (refuted); proved for all other strings, and that parsing never panics; the accepted strings and their values are characterised exactly."),
 ("C26", P, ["C26_hex", "C26_round_trip"], ""),
 ("C27", P, ["C27_decimal", "C27_round_trip"], ""),
 ("C28", P, ["C28_hex", "C28_decimal", "C28_display_binary"], ""),
 ("C29", Q, ["C29_refuted", "C29_partial", "C29_display_partial", "C29_exact_partial", "C29_display_exact_partial", "C29_short"], "False from 16 digits on: inner parts are not zero padded (refuted). Proved below 16 digits; up to 5102 digits, if no inner division meets a tie, proved that the conversion panics exactly when a scale or a division meets a product that jams (never up to 120 digits), and that otherwise the result is right exactly when no lower part needs padding, and too small otherwise."),
 ("C30", P, ["C30_digits", "C30_div_binary", "C30_rem_binary", "C30_decimal_division_refuted"], "Every program over the listed operations, with division by big numbers for the binary types. Division by big numbers of a decimal type is outside the claim and breaks it (refuted)."),
 ("C31", Q, ["C31_partial", "C31_no_squares", "C31_refuted"], "False because of the wrong squares of C15 (refuted); proved for runs that square at most 1131 digits (also with big divisions that do not go wrong), and for all programs without squares and powers (for decimal types, shifts up to the same limit)."),
 ("C32", Q, ["C32_add", "C32_sub", "C32_mul", "C32_mul_exact", "C32_mul_partial", "C32_programs", "C32_parse", "C32_refuted", "C32_parse_refuted"], "Results agree whenever both types return, also for whole programs; false that they return alike (exactly when, for products; refuted for a product and for a string that is no numeral)."),
 ("C33", P, ["C33_add", "C33_sub", "C33_mul", "C33_div", "C33_rem", "C33_digit", "C33_machine", "C33_shift", "C33_pow"], "Equality of outcomes, including which panic."),
 ("C34", P, ["C34_comm", "C34_comm_outcome", "C67_order", "C34_assoc", "C34_distr", "C34_one", "C34_zero"], ""),
 ("C35", P, ["C35_div_rem_base", "C35_debug"], ""),
 ("C36", P, ["C36_add_sub", "C36_shift", "C36_max_shift", "C36_mul", "C36_div", "C36_read"], ""),
 ("C37", P, ["C37_add", "C37_sub", "C37_mul", "C37_square", "C37_pow", "C37_div_assign_big", "C37_rem_assign_big", "C37_div", "C37_rem", "C37_machine", "C37_digit", "C37_methods", "C37_shift", "C37_parse", "C37_to_decimal", "C37_display"], "For arbitrary digits, also those at or above the base."),
 ("C38", P, ["C38_multiply", "C38_square", "C38_pow", "C38_divide", "C38_remainder"], "For all lengths and arbitrary digits (the divisor without leading zeros), all digit types, debug and release builds."),
 ("C39", Q, ["C39_mul_scratch", "C39_mul_outcome", "C39_scratch_only", "C39_mul_short", "C39_square_partial", "C39_square_clean_partial", "C39_square_refuted", "C39_square_scratch_refuted"], "Proved for multiplication of any size (same product or same panic) and for squares below 128 digits; false for Toom-3 squaring (refuted); with a cleared output the scratch contents do not matter up to 378 digits, the exact limit (refuted at 379)."),
 ("C40", P, ["C40_multiply", "C40_square", "C40_pow", "C40_divide", "C40_operators", "C40_machine", "C40_parse", "C40_decimal"], "For arbitrary digits."),
 ("C41", P, ["C41_fibonacci", "C41_fibonacci_total", "C41_forty", "C41_exact", "C41_builds"], ""),
 ("C42", P, ["C42_div_base", "C42_wide", "C42_all", "C42_debug", "C42_release_refuted", "C42_fold"], ""),
 ("C43", Q, ["C43_decimal_refuted", "C43_release_refuted", "C43_partial", "C43_overflow_partial", "C43_exact_partial", "C43_neutral", "C43_error_texts"], "False as stated: decimal digits add up beyond the base, release builds wrap (refuted); exact whenever the result is a digit; the outcome for all values of the storage type."),
 ("C44", P, ["C44_exact"], ""),
 ("C45", Q, ["C45_refuted", "C45_add_sub_partial", "C45_sub_add", "C45_self"], "(x + y) - y == x is false (refuted); the value is always right and the exact condition for equality is proved. The other two laws are proved."),
 ("C46", P, ["C46_mul_div", "C46_div_mul"], ""),
 ("C47", P, ["C47_add", "C47_mul", "C47_div"], ""),
 ("C48", P, ["C48_shl_shl", "C48_shl_shr", "C48_shl_mul"], ""),
 ("C49", P, ["C49_zero_one", "C49_add", "C49_mul", "C49_mul_value"], ""),
 ("C50", P, ["C50_parse_print", "C50_parse_print_binary", "C50_parse_print_hex", "C50_print_parse", "C50_transfer"], ""),
 ("C51", P, ["C51_order", "C51_add", "C51_mul", "C51_sub"], ""),
 ("C52", P, ["C52_exact", "C52_exact_large"], "Methods and operators up to 80 digits; above that, every quotient that is returned."),
 ("C53", P, ["C53_exact"], ""),
 ("C54", P, ["C54_noticed"], ""),
 ("C55", P, ["C55_mul_depth", "C55_square_depth", "C55_div_depth", "C55_mul_entry", "C55_div_entry"], ""),
 ("C56", P, ["C56_inc", "C56_add_digit", "C56_add_big", "C56_add_into"], ""),
 ("C57", P, ["C57_dec", "C57_sub_digit", "C57_sub_big", "C57_sub_into", "C57_rsub"], ""),
 ("C58", Q, ["C58_refuted", "C58_digit_refuted", "C58_count_partial", "C58_normal_partial"], "False as stated (refuted for every type); the exact count of sub_assign_big, and what the operands look like when it is too large."),
 ("C59", Q, ["C59_refuted", "C59_dirty_refuted", "C59_into_partial", "C59_assign_partial", "C59_into_normal_partial", "C59_assign_normal_partial"], "False as stated: operands with leading zeros can panic, digits left above the length of the first operand are taken as part of it (refuted for every type). The exact outcome for all operands, and correctness for normalised operands in clean buffers."),
 ("C60", P, ["C60_shl", "C60_shr", "C60_double"], ""),
 ("C61", P, ["C61_digit", "C61_digit_into", "C61_pair", "C61_long", "C61_square"], ""),
 ("C62", P, ["C62_rem", "C62_div", "C62_div3"], ""),
 ("C63", Q, ["C63_add", "C63_add_normal", "C63_sub_refuted", "C63_sub_partial"], "Addition proved, with the digit count and when the result is normalised. Subtraction at a nonzero offset drops digits (refuted for every type); the exact outcome for all operands. The crate only uses offset zero."),
 ("C64", P, ["C64"], ""),
 ("C65", Q, ["C65_refuted", "C65_partial", "C65_limit_refuted", "C65_margin_refuted"], "False for every n (refuted); one place more suffices below 14369 bytes and not at 14369; no fixed number of places more is enough for all n."),
 ("C66", P, ["C66_mul_exact", "C66_computed", "C66_only_panic"], ""),
 ("C67", P, ["C67_order", "C67_build"], ""),
 ("C68", P, ["C68_binary", "C68_untied", "C68_decimal", "C68_decimal_stops", "C68_short", "C68_computed"], ""),
 ("C69", P, ["C69_karatsuba", "C69_toom3", "C69_division", "C69_grow", "C69_words"], ""),
 ("C70", P, ["C70_run", "C70_digits", "C70_builds", "C70_plain", "C70_tight"], ""),
 ("C71", P, ["C71_inc", "C71_dec", "C71_add_digit", "C71_sub_digit", "C71_add_big", "C71_sub_big", "C71_sub_into", "C71_add_into", "C71_rsub", "C71_inc_undone", "C71_dec_undone", "C71_add_undone", "C71_sub_undone", "C71_rsub_undone", "C71_add_into_comm", "C71_refused"], ""),
 ("C72", P, ["C72_undivided", "C72_dividend", "C72_dividend_large", "C72_thin", "C72_debug", "C72_decimal", "C72_decimal_debug", "C72_release_refuted", "C72_decimal_refuted", "C72_decimal_large_refuted", "C72_decimal_wrap_refuted"], "Release builds with a divisor of three or more digits and a leading zero: witnesses of wrong results, except for the decimal divisors of up to 19 digits of C72_decimal; what they return in general is not characterised."),
 ("C73", P, ["C73_eq", "C73_cmp", "C73_cmp_eq", "C73_hex", "C73_decimal", "C73_hex_zero", "C73_decimal_zero", "C73_hex_round", "C73_decimal_round", "C73_to_decimal", "C73_display"], "Conversion from binary to decimal is claimed below 16 digits only, as in C29."),
 ("C74", P, ["C74_operators", "C74_padded", "C74_max_min", "C74_clamp", "C74_debug", "C74_debug_unique", "C74_pretty", "C74_pretty_unique"], ""),
 ("C75", P, ["C75_add", "C75_sub", "C75_sub_refuted", "C75_mul", "C75_div", "C75_canonical", "C75_error", "C75_compare"], "C75_sub_refuted shows that differences can have superfluous zeros."),
 ("C76", P, ["C76_value", "C76_stops", "C76_either", "C76_unique", "C76_jam", "C76_simple", "C76_types", "C76_nested_refuted"], "C76_nested_refuted shows why no difference may be subtracted."),
 ("C77", P, ["C77_convert", "C77_twice", "C77_refuted", "C77_exact", "C77_short", "C77_error"], "C77_refuted shows the lost zeros of binary types from 16 digits on (C29)."),
 ("C78", P, ["C78_outcome", "C78_text", "C78_either", "C78_value", "C78_builds", "C78_compare", "C78_display", "C78_divisor_refuted", "C78_compare_refuted"], "C78_compare_refuted shows why equal comparisons need numbers without leading zeros. C78_divisor_refuted shows that the condition on divisors in C78_value is needed. Divisions, powers and long decimal shifts whose outcome C70 does not describe are left out of comes_to."),
 ("C79", P, ["C79_sum", "C79_sum_value", "C79_product", "C79_product_value", "C79_product_refuted"], "C79_product_refuted shows that panics of products do depend on the order."),
 ("C80", P, ["C80_trim", "C80_value", "C80_equal", "C80_text", "C80_distribute", "C80_binomial", "C80_minus_refuted"], "C80_minus_refuted shows why expressions that end in a difference are excluded."),
 ("C81", P, ["C81_cause", "C81_debug", "C81_sub", "C81_sub_digit", "C81_sub_pair", "C81_zero", "C81_div_digit", "C81_space", "C81_mul", "C81_square", "C81_shr"], "Squares up to 1131 digits, as in C66. Messages of index and overflow checks and of assertions contain line numbers or source text and are not modelled."),
 ("C82", P, ["C82_blame", "C82_fault", "C82_message", "C82_negative", "C82_by_zero", "C82_growing", "C82_refused", "C82_total", "C82_parts", "C82_first", "C82_negative_refuted"], "C82_negative_refuted shows that leading zeros can be to blame instead of a negative difference."),
]
json.dump({"claims": [dict(property=p, status=s, theorems=t, note=n) for p, s, t, n in CLAIMS]},
          open("MANIFEST.json", "w"), indent=1)
