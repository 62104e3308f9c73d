(** Generated by tools/gen_spec.py from src/enums.rs; do not edit. The discriminants of the enumerations used by the specifications. *)
From Verif Require Import Base.
Open Scope Z_scope.

(** src/enums.rs:131-134 *)
Definition e_AngleDirection : list Z := [0; 1].
(** src/enums.rs:140-146 *)
Definition e_AngleFormat : list Z := [0; 1; 2; 3; 4].
(** src/enums.rs:152-162 *)
Definition e_AttachmentPoint : list Z := [1; 2; 3; 4; 5; 6; 7; 8; 9].
(** src/enums.rs:168-172 *)
Definition e_AttributeVisibility : list Z := [0; 1; 2].
(** src/enums.rs:178-182 *)
Definition e_BackgroundFillSetting : list Z := [0; 1; 2].
(** src/enums.rs:188-191 *)
Definition e_BottomTextAttachmentDirection : list Z := [9; 10].
(** src/enums.rs:197-201 *)
Definition e_CoordinateDisplay : list Z := [0; 1; 2].
(** src/enums.rs:207-211 *)
Definition e_DefaultLightingType : list Z := [0; 1].
(** src/enums.rs:217-223 *)
Definition e_DesignCoordinateType : list Z := [0; 1; 2; 3].
(** src/enums.rs:229-233 *)
Definition e_DiagnosticBSPMode : list Z := [0; 1].
(** src/enums.rs:239-243 *)
Definition e_DiagnosticPhotonMode : list Z := [0; 1].
(** src/enums.rs:249-257 *)
Definition e_DictionaryDuplicateRecordHandling : list Z := [0; 1; 2; 3; 4; 5].
(** src/enums.rs:263-267 *)
Definition e_DimensionArcSymbolDisplayMode : list Z := [0; 1; 2].
(** src/enums.rs:273-277 *)
Definition e_DimensionAssociativity : list Z := [0; 1; 2].
(** src/enums.rs:283-288 *)
Definition e_DimensionFit : list Z := [0; 1; 2; 3].
(** src/enums.rs:294-298 *)
Definition e_DimensionFractionFormat : list Z := [0; 1; 2].
(** src/enums.rs:304-308 *)
Definition e_DimensionTextBackgroundColorMode : list Z := [0; 1; 2].
(** src/enums.rs:314-320 *)
Definition e_DimensionTextJustification : list Z := [0; 1; 2; 3; 4].
(** src/enums.rs:326-330 *)
Definition e_DimensionTextMovementRule : list Z := [0; 1; 2].
(** src/enums.rs:336-344 *)
Definition e_DimensionType : list Z := [0; 1; 2; 3; 4; 5; 6].
(** src/enums.rs:350-354 *)
Definition e_DragMode : list Z := [0; 1; 2].
(** src/enums.rs:360-364 *)
Definition e_DrawingDirection : list Z := [1; 3; 5].
(** src/enums.rs:1159-1237 *)
Definition e_DrawingTimeZone : list Z := [(-12000); (-11000); (-10000); (-9000); (-8000); (-7000); (-7002); (-6000); (-6001); (-6002); (-6003); (-5000); (-5001); (-5002); (-4000); (-4001); (-4002); (-3300); (-3000); (-3001); (-3002); (-2000); (-1000); (-1001); 0; 1; 2; 1000; 1001; 1002; 1003; 1004; 2000; 2001; 2002; 2003; 2004; 2005; 3000; 3001; 3002; 3003; 3300; 4000; 4001; 4300; 5000; 5001; 5300; 5450; 6000; 6001; 6002; 6300; 7000; 7001; 8000; 8001; 8002; 8003; 8004; 9000; 9001; 9002; 9300; 9301; 10000; 10001; 10002; 10003; 10004; 11000; 12000; 12001; 13000].
(** src/enums.rs:370-373 *)
Definition e_DrawingUnits : list Z := [0; 1].
(** src/enums.rs:8-15 *)
Definition e_Dwf3DPrecision : list Z := [1; 2; 3; 4; 5; 6].
(** src/enums.rs:379-384 *)
Definition e_EdgeStyleModel : list Z := [0; 1; 2].
(** src/enums.rs:390-395 *)
Definition e_EndCapSetting : list Z := [0; 1; 2; 3].
(** src/enums.rs:401-410 *)
Definition e_FaceColorMode : list Z := [0; 1; 2; 3; 4; 5; 6].
(** src/enums.rs:416-422 *)
Definition e_FaceLightingModel : list Z := [0; 1; 2; 3].
(** src/enums.rs:428-433 *)
Definition e_FaceLightingQuality : list Z := [0; 1; 2].
(** src/enums.rs:439-444 *)
Definition e_FaceModifier : list Z := [0; 1; 2].
(** src/enums.rs:450-454 *)
Definition e_FlowDirection : list Z := [0; 1].
(** src/enums.rs:460-463 *)
Definition e_FontType : list Z := [0; 1].
(** src/enums.rs:469-473 *)
Definition e_GeoDataVersion : list Z := [1; 2].
(** src/enums.rs:479-483 *)
Definition e_HelixConstraint : list Z := [0; 1; 2].
(** src/enums.rs:489-496 *)
Definition e_HorizontalTextJustification : list Z := [0; 1; 2; 3; 4; 5].
(** src/enums.rs:502-505 *)
Definition e_ImageClippingBoundaryType : list Z := [1; 2].
(** src/enums.rs:511-516 *)
Definition e_ImageResolutionUnits : list Z := [0; 2; 5].
(** src/enums.rs:522-527 *)
Definition e_JoinStyle : list Z := [0; 1; 2; 3].
(** src/enums.rs:533-537 *)
Definition e_Justification : list Z := [0; 1; 2].
(** src/enums.rs:543-548 *)
Definition e_LayerAndSpatialIndexSaveMode : list Z := [0; 1; 2; 3].
(** src/enums.rs:554-559 *)
Definition e_LeaderCreationAnnotationType : list Z := [0; 1; 2; 3].
(** src/enums.rs:565-568 *)
Definition e_LeaderHooklineDirection : list Z := [0; 1].
(** src/enums.rs:574-577 *)
Definition e_LeaderPathType : list Z := [0; 1].
(** src/enums.rs:583-587 *)
Definition e_LightAttenuationType : list Z := [0; 1; 2].
(** src/enums.rs:593-597 *)
Definition e_LightType : list Z := [1; 2; 3].
(** src/enums.rs:603-616 *)
Definition e_LineTypeStyle : list Z := [0; 1; 2; 3; 4; 5; 6; 7; 8; 9; 10; 11].
(** src/enums.rs:622-630 *)
Definition e_LoftedObjectNormalMode : list Z := [0; 1; 2; 3; 4; 5; 6].
(** src/enums.rs:670-673 *)
Definition e_MTextFlag : list Z := [2; 4].
(** src/enums.rs:679-682 *)
Definition e_MTextLineSpacingStyle : list Z := [1; 2].
(** src/enums.rs:636-641 *)
Definition e_MapAutoTransformMethod : list Z := [1; 2; 4].
(** src/enums.rs:647-653 *)
Definition e_MapProjectionMethod : list Z := [1; 2; 3; 4].
(** src/enums.rs:659-664 *)
Definition e_MapTilingMethod : list Z := [1; 2; 3].
(** src/enums.rs:688-695 *)
Definition e_NonAngularUnits : list Z := [1; 2; 3; 4; 5; 6].
(** src/enums.rs:701-717 *)
Definition e_ObjectOsnapType : list Z := [0; 1; 2; 3; 4; 5; 6; 7; 8; 9; 10; 11; 12; 13].
(** src/enums.rs:723-727 *)
Definition e_OleObjectType : list Z := [1; 2; 3].
(** src/enums.rs:733-741 *)
Definition e_OrthographicViewType : list Z := [0; 1; 2; 3; 4; 5; 6].
(** src/enums.rs:747-752 *)
Definition e_PickStyle : list Z := [0; 1; 2; 3].
(** src/enums.rs:758-763 *)
Definition e_PlotPaperUnits : list Z := [0; 1; 2].
(** src/enums.rs:769-775 *)
Definition e_PlotRotation : list Z := [0; 1; 2; 3].
(** src/enums.rs:781-786 *)
Definition e_PlotStyle : list Z := [0; 1; 2; 3].
(** src/enums.rs:792-800 *)
Definition e_PlotType : list Z := [0; 1; 2; 3; 4; 5].
(** src/enums.rs:817-820 *)
Definition e_PolySketchMode : list Z := [0; 1].
(** src/enums.rs:806-811 *)
Definition e_PolylineCurvedAndSmoothSurfaceType : list Z := [0; 5; 6; 8].
(** src/enums.rs:826-837 *)
Definition e_RasterImageUnits : list Z := [0; 1; 2; 3; 4; 5; 6; 7; 8].
(** src/enums.rs:843-848 *)
Definition e_RenderAccuracy : list Z := [0; 1; 2].
(** src/enums.rs:854-858 *)
Definition e_RenderDestination : list Z := [0; 1].
(** src/enums.rs:864-869 *)
Definition e_RenderDiagnosticGridMode : list Z := [0; 1; 2].
(** src/enums.rs:875-881 *)
Definition e_RenderDiagnosticMode : list Z := [0; 1; 2; 4].
(** src/enums.rs:887-892 *)
Definition e_RenderDuration : list Z := [0; 1; 2].
(** src/enums.rs:898-903 *)
Definition e_RenderProcedure : list Z := [0; 1; 2].
(** src/enums.rs:909-914 *)
Definition e_RenderShadowMode : list Z := [0; 1; 2].
(** src/enums.rs:920-924 *)
Definition e_RotatedDimensionType : list Z := [0; 1].
(** src/enums.rs:930-937 *)
Definition e_SamplingFilterType : list Z := [0; 1; 2; 3; 4].
(** src/enums.rs:943-949 *)
Definition e_ScaleEstimationMethod : list Z := [1; 2; 3; 4].
(** src/enums.rs:955-960 *)
Definition e_ShadeEdgeMode : list Z := [0; 1; 2; 3].
(** src/enums.rs:966-972 *)
Definition e_ShadePlotMode : list Z := [0; 1; 2; 3].
(** src/enums.rs:978-986 *)
Definition e_ShadePlotResolutionLevel : list Z := [0; 1; 2; 3; 4; 5].
(** src/enums.rs:992-997 *)
Definition e_ShadowMode : list Z := [0; 1; 2; 3].
(** src/enums.rs:1003-1006 *)
Definition e_ShadowType : list Z := [0; 1].
(** src/enums.rs:1012-1016 *)
Definition e_SnapIsometricPlane : list Z := [0; 1; 2].
(** src/enums.rs:1022-1025 *)
Definition e_SnapStyle : list Z := [0; 1].
(** src/enums.rs:1031-1035 *)
Definition e_SolidHistoryMode : list Z := [0; 1; 2].
(** src/enums.rs:1042-1077 *)
Definition e_StandardScale : list Z := [0; 1; 2; 3; 4; 5; 6; 7; 8; 9; 10; 11; 12; 13; 14; 15; 16; 17; 18; 19; 20; 21; 22; 23; 24; 25; 26; 27; 28; 29; 30; 31; 32].
(** src/enums.rs:1083-1087 *)
Definition e_SubentityType : list Z := [1; 2].
(** src/enums.rs:1093-1096 *)
Definition e_TextAttachmentDirection : list Z := [0; 1].
(** src/enums.rs:1102-1105 *)
Definition e_TextDirection : list Z := [0; 1].
(** src/enums.rs:1111-1114 *)
Definition e_TextLineSpacingStyle : list Z := [1; 2].
(** src/enums.rs:1120-1123 *)
Definition e_TileModeDescriptor : list Z := [0; 1].
(** src/enums.rs:1129-1137 *)
Definition e_TileOrder : list Z := [0; 1; 2; 3; 4; 5].
(** src/enums.rs:1243-1246 *)
Definition e_TopTextAttachmentDirection : list Z := [9; 10].
(** src/enums.rs:1143-1152 *)
Definition e_UcsOrthographicType : list Z := [0; 1; 2; 3; 4; 5; 6].
(** src/enums.rs:1252-1256 *)
Definition e_UnderlayFrameMode : list Z := [0; 1; 2].
(** src/enums.rs:1262-1270 *)
Definition e_UnitFormat : list Z := [1; 2; 3; 4; 5; 6; 7].
(** src/enums.rs:1409-1414 *)
Definition e_UnitZeroSuppression : list Z := [0; 1; 2; 3].
(** src/enums.rs:1276-1302 *)
Definition e_Units : list Z := [0; 1; 2; 3; 4; 5; 6; 7; 8; 9; 10; 11; 12; 13; 14; 15; 16; 17; 18; 19; 20; 21; 22; 23; 24].
(** src/enums.rs:1380-1382 *)
Definition e_Version : list Z := [0].
(** src/enums.rs:1388-1393 *)
Definition e_VerticalTextJustification : list Z := [0; 1; 2; 3].
(** src/enums.rs:1365-1374 *)
Definition e_ViewRenderMode : list Z := [0; 1; 2; 3; 4; 5; 6].
(** src/enums.rs:1399-1403 *)
Definition e_XrefClippingBoundaryVisibility : list Z := [0; 1; 2].
