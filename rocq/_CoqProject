-Q theories Verif
theories/Rust.v
theories/M_Error.v
theories/M_Tables.v
theories/M_Parse.v
theories/M_Helpers.v
theories/M_Ean13.v
theories/M_Ean8.v
theories/M_Upca.v
theories/M_EanSupp.v
theories/M_Code39.v
theories/M_Code93.v
theories/M_Code11.v
theories/M_Codabar.v
theories/M_Tf.v
theories/M_Code128.v
theories/M_Ascii.v
theories/M_Json.v
theories/M_Svg.v
theories/M_Image.v
theories/T_Vectors.v
theories/S_Barcode.v
theories/S_Ean.v
theories/S_Text.v
theories/P_Rust.v
theories/P_Barcode.v
theories/P_Parse.v
theories/P_Gs1.v
theories/P_Ean.v
theories/P_Retail.v
theories/P_Retail2.v
theories/P_Retail3.v
theories/P_Supp.v
theories/S_Linear.v
theories/P_Alphabet.v
theories/P_Gap.v
theories/P_Weighted.v
theories/P_Code39.v
theories/P_Code93.v
theories/P_Code11.v
theories/S_Codabar.v
theories/S_Tf.v
theories/P_Codabar.v
theories/P_Tf.v
theories/S_Code128.v
theories/P_Code128.v
theories/P_Code128b.v
theories/Symbology.v
theories/M_Use.v
theories/S_All.v
theories/P_Hand.v
theories/P_All.v
theories/S_Size.v
theories/P_Width.v
theories/S_Num.v
theories/S_Ascii.v
theories/S_Json.v
theories/S_Svg.v
theories/P_Num.v
theories/P_Ascii.v
theories/P_Json.v
theories/P_Xml.v
theories/P_Svg.v
theories/P_Svg2.v
theories/S_Image.v
theories/P_Image.v
theories/P_Image2.v
theories/S_Gen.v
theories/P_Gen.v
theories/S_Build.v
theories/P_Build.v
theories/P_Apart.v
theories/S_Damage.v
theories/P_Damage.v
theories/S_Inject.v
theories/P_Inject.v
theories/P_Turned.v
theories/S_Check128.v
theories/P_Check128.v
theories/S_Cell.v
theories/P_Cell.v
theories/P_Misread.v
theories/S_Cut.v
theories/P_Cut.v
theories/S_Heard.v
theories/P_Heard.v
theories/S_Stretch.v
theories/P_Stretch.v
theories/P_Readable.v
theories/S_Errors.v
theories/P_Errors.v
theories/S_Exact.v
theories/P_Exact.v
theories/S_Blind.v
theories/P_Blind.v
theories/S_Row.v
theories/P_Row.v
theories/P_Size.v
theories/S_Doc.v
theories/P_Doc.v
theories/S_Pattern.v
theories/P_Pattern.v
theories/S_Wrong.v
theories/P_Wrong.v
theories/S_Item.v
theories/P_Item.v
theories/S_Several.v
theories/P_Several.v
theories/M_Target.v
theories/P_Target.v
theories/S_Tolerance.v
theories/P_Tolerance.v
theories/S_Reprint.v
theories/P_Reprint.v
theories/S_FullAscii.v
theories/P_FullAscii.v
theories/S_Quiet.v
theories/P_Quiet.v
theories/S_Any.v
theories/P_Any.v
theories/S_Line.v
theories/P_Line.v
theories/S_Latin.v
theories/P_Latin.v
theories/M_Debug.v
theories/S_Debug.v
theories/P_Debug.v
theories/M_Pretty.v
theories/S_Pretty.v
theories/P_Pretty.v
theories/P_Oneline.v
theories/P_Slip.v
theories/S_Skip.v
theories/P_Skip.v
theories/P_Skip2.v
theories/S_Scale.v
theories/P_Scale.v
theories/S_Part.v
theories/P_Part.v
theories/P_Back.v
theories/S_Blot.v
theories/S_Place.v
theories/P_Blot.v
theories/P_Place.v
theories/S_Cross.v
theories/P_Cross.v
theories/P_Cross2.v
theories/P_Cross3.v
theories/P_Part2.v
theories/P_Side.v
theories/P_Side2.v
theories/S_Ink.v
theories/P_Ink.v
theories/P_Ink2.v
theories/P_Ink3.v
theories/P_Ink4.v
theories/P_Marks.v
theories/S_Neg.v
theories/P_Neg.v
theories/S_Stream.v
theories/P_Stream.v
theories/P_Stream2.v
theories/S_Illegible.v
theories/P_Illegible.v
theories/S_Vote.v
theories/P_Vote.v
theories/P_Missing.v
theories/P_Missing2.v
theories/P_Missing3.v
theories/C_Cross.v
theories/C_Retail.v
theories/C_Linear.v
theories/C_Codabar.v
theories/C_Tf.v
theories/C_Code128.v
theories/C_Supp.v
theories/C_All.v
theories/C_Text.v
theories/C_Svg.v
theories/C_Image.v
theories/C_Gen.v
theories/C_Apart.v
theories/C_Build.v
theories/C_Damage.v
theories/C_Inject.v
theories/C_Turned.v
theories/C_Check128.v
theories/C_Cell.v
theories/C_Misread.v
theories/C_Cut.v
theories/C_Heard.v
theories/C_Stretch.v
theories/C_Errors.v
theories/C_Exact.v
theories/C_Blind.v
theories/C_Row.v
theories/C_Size.v
theories/C_Doc.v
theories/C_Pattern.v
theories/C_Wrong.v
theories/C_Item.v
theories/C_Several.v
theories/C_Target.v
theories/C_Tolerance.v
theories/C_Reprint.v
theories/C_FullAscii.v
theories/C_Quiet.v
theories/C_Any.v
theories/C_Line.v
theories/C_Latin.v
theories/C_Debug.v
theories/C_Slip.v
theories/C_Skip.v
theories/C_Part.v
theories/C_Side.v
theories/C_Back.v
theories/C_Pretty.v
theories/C_Blot.v
theories/C_Place.v
theories/C_Scale.v
theories/C_Ink.v
theories/C_Marks.v
theories/C_Neg.v
theories/C_Stream.v
theories/C_Illegible.v
theories/C_Vote.v
theories/C_Missing.v
