-Q theories Verif
theories/Base.v
theories/Registry.v
theories/RegistrySpec.v
theories/RegistryFacts.v
theories/Prop_Registry.v
theories/Convert.v
theories/ConvertSpec.v
theories/ConvertFacts.v
theories/Prop_Convert.v
theories/Command.v
theories/CommandSpec.v
theories/CommandFacts.v
theories/Prop_Command.v
theories/Queue.v
theories/QueueSpec.v
theories/QueueFacts.v
theories/Prop_Queue.v
theories/Base64.v
theories/Base64Facts.v
theories/Execute.v
theories/Json.v
theories/JsonSpec.v
theories/JsonFacts.v
theories/Prop_Json.v
theories/Slice.v
theories/SliceFacts.v
theories/Ragged.v
theories/RaggedSpec.v
theories/RaggedFacts.v
theories/Prop_Ragged.v
theories/Tracked.v
theories/TrackedSpec.v
theories/TrackedFacts.v
theories/Prop_Tracked.v
theories/Swizzle.v
theories/SwizzleSpec.v
theories/SwizzleFacts.v
theories/Prop_Swizzle.v
theories/Dtype.v
theories/DtypeSpec.v
theories/DtypeFacts.v
theories/Prop_Dtype.v
theories/Transform.v
theories/TransformSpec.v
theories/TransformFacts.v
theories/Prop_Transform.v
theories/Measure.v
theories/MeasureSpec.v
theories/MeasureFacts.v
theories/Prop_Measure.v
theories/Visual.v
theories/VisualSpec.v
theories/VisualFacts.v
theories/Prop_Visual.v
theories/Render.v
theories/RenderSpec.v
theories/RenderFacts.v
theories/Prop_Render.v
theories/Svg.v
theories/SvgSpec.v
theories/SvgFacts.v
theories/Prop_Svg.v
theories/Glm.v
theories/GlmSpec.v
theories/GlmFacts.v
theories/Prop_Glm.v
theories/Trackball.v
theories/TrackballSpec.v
theories/TrackballFacts.v
theories/Prop_Trackball.v
theories/Vec.v
theories/VecSpec.v
theories/VecFacts.v
theories/Prop_Vec.v
theories/Shapes.v
theories/ShapesSpec.v
theories/ShapesFacts.v
theories/Prop_Shapes.v
theories/Viewport.v
theories/ViewportSpec.v
theories/ViewportFacts.v
theories/Prop_Viewport.v
theories/JsonComp.v
theories/JsonCompSpec.v
theories/JsonCompFacts.v
theories/Scripts.v
theories/ScriptsFacts.v
theories/Prop_JsonComp.v
theories/Prop_Scripts.v
theories/Download.v
theories/DownloadSpec.v
theories/DownloadFacts.v
theories/Prop_Download.v
theories/Camera.v
theories/CameraSpec.v
theories/CameraFacts.v
theories/Prop_Camera.v
theories/Stage.v
theories/StageSpec.v
theories/StageFacts.v
theories/Prop_Stage.v
theories/Buffer.v
theories/BufferSpec.v
theories/BufferFacts.v
theories/Prop_Buffer.v
theories/Types.v
theories/TypesFacts.v
theories/Prop_Types.v
theories/Arc.v
theories/ArcSpec.v
theories/ArcFacts.v
theories/Prop_Arc.v
theories/Marker.v
theories/MarkerSpec.v
theories/MarkerFacts.v
theories/Prop_Marker.v
theories/Create.v
theories/CreateSpec.v
theories/CreateFacts.v
theories/Prop_Create.v
theories/Scene.v
theories/SceneSpec.v
theories/SceneFacts.v
theories/Prop_Scene.v
theories/Protocol.v
theories/ProtocolSpec.v
theories/ProtocolFacts.v
theories/Prop_Protocol.v
theories/Text.v
theories/TextSpec.v
theories/TextFacts.v
theories/Prop_Text.v
theories/Lines.v
theories/LinesSpec.v
theories/LinesFacts.v
theories/Prop_Lines.v
theories/Cloud.v
theories/CloudSpec.v
theories/CloudFacts.v
theories/Prop_Cloud.v
theories/Docs.v
theories/DocsSpec.v
theories/DocsFacts.v
theories/Prop_Docs.v
theories/Launcher.v
theories/LauncherFacts.v
theories/Prop_Launcher.v
theories/Session.v
theories/SessionSpec.v
theories/SessionFacts.v
theories/Prop_Session.v
theories/Mesh.v
theories/MeshSpec.v
theories/MeshFacts.v
theories/Prop_Mesh.v
theories/Image.v
theories/ImageSpec.v
theories/ImageFacts.v
theories/Prop_Image.v
theories/LibrarySpec.v
theories/LibraryFacts.v
theories/Prop_Library.v
theories/Journal.v
theories/JournalSpec.v
theories/JournalFacts.v
theories/JournalLossFacts.v
theories/Prop_Journal.v
theories/Derived.v
theories/DerivedSpec.v
theories/DerivedFacts.v
theories/Prop_Derived.v
theories/Precise.v
theories/PreciseSpec.v
theories/PreciseFacts.v
theories/Prop_Precise.v
theories/Conformance.v
theories/JsonText.v
theories/JsonTextSpec.v
theories/JsonTextFacts.v
theories/JsonTextFacts2.v
theories/JsonFile.v
theories/JsonFileSpec.v
theories/JsonFileFacts.v
theories/Prop_JsonText.v
theories/Prop_JsonFile.v
theories/Creation.v
theories/CreationSpec.v
theories/CreationFacts.v
theories/Prop_Creation.v
theories/JournalPlainSpec.v
theories/JournalPlainFacts.v
theories/Prop_JournalPlain.v
theories/Print.v
theories/PrintSpec.v
theories/PrintFacts.v
theories/Prop_Print.v
theories/Page.v
theories/PageSpec.v
theories/PageFacts.v
theories/Prop_Page.v
theories/AnyFile.v
theories/AnyFileSpec.v
theories/AnyFileFacts.v
theories/Prop_AnyFile.v
theories/SessionFile.v
theories/SessionFileSpec.v
theories/SessionFileFacts.v
theories/Prop_SessionFile.v
theories/JsonGrammarSpec.v
theories/JsonGrammarFacts.v
theories/Prop_JsonGrammar.v
theories/JsonFileFacts2.v
theories/Picture.v
theories/PictureSpec.v
theories/PictureFacts.v
theories/Prop_Picture.v
theories/Drag.v
theories/DragSpec.v
theories/DragFacts.v
theories/Prop_Drag.v
theories/Outline.v
theories/OutlineSpec.v
theories/OutlineFacts.v
theories/Prop_Outline.v
theories/Nested.v
theories/NestedSpec.v
theories/NestedFacts.v
theories/Prop_Nested.v
theories/Live.v
theories/LiveSpec.v
theories/LiveFacts.v
theories/Prop_Live.v
theories/Depth.v
theories/DepthSpec.v
theories/DepthFacts.v
theories/Prop_Depth.v
theories/Sized.v
theories/SizedSpec.v
theories/SizedFacts.v
theories/Prop_Sized.v
theories/Fixed.v
theories/FixedSpec.v
theories/FixedFacts.v
theories/Prop_Fixed.v
theories/Drift.v
theories/DriftSpec.v
theories/DriftRound.v
theories/DriftFacts.v
theories/DriftFollow.v
theories/Prop_Drift.v
theories/Panes.v
theories/PanesSpec.v
theories/PanesFacts.v
theories/Prop_Panes.v
theories/Remote.v
theories/RemoteSpec.v
theories/RemoteFacts.v
theories/Prop_Remote.v
theories/Relay.v
theories/RelaySpec.v
theories/RelayFacts.v
theories/Prop_Relay.v
theories/Gallery.v
theories/GallerySpec.v
theories/GalleryFacts.v
theories/GalleryMade.v
theories/Prop_Gallery.v
theories/Samples.v
theories/SamplesSpec.v
theories/SamplesFacts.v
theories/Prop_Samples.v
theories/Callbacks.v
theories/CallbacksSpec.v
theories/CallbacksFacts.v
theories/Prop_Callbacks.v
theories/Terrain.v
theories/TerrainSpec.v
theories/TerrainFacts.v
theories/Prop_Terrain.v
theories/Single.v
theories/SingleSpec.v
theories/SingleFacts.v
theories/Prop_Single.v
theories/Rendered.v
theories/RenderedSpec.v
theories/RenderedFacts.v
theories/Prop_Rendered.v
theories/Joined.v
theories/JoinedSpec.v
theories/JoinedFacts.v
theories/Prop_Joined.v
theories/Overflow.v
theories/OverflowFacts.v
theories/Prop_Overflow.v
theories/Optics.v
theories/OpticsSpec.v
theories/OpticsFacts.v
theories/Prop_Optics.v
theories/Flat.v
theories/FlatSpec.v
theories/FlatFacts.v
theories/Prop_Flat.v
theories/FlatJoinedFacts.v
theories/Prop_FlatJoined.v
theories/Zoom.v
theories/ZoomSpec.v
theories/ZoomFacts.v
theories/Prop_Zoom.v
theories/Growth.v
theories/GrowthSpec.v
theories/GrowthFacts.v
theories/Prop_Growth.v
theories/Edges.v
theories/EdgesSpec.v
theories/EdgesFacts.v
theories/Prop_Edges.v
